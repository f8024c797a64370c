(** C111: furiten. *)
From Coq Require Import ZArith List Bool String Lia.
From Verif Require Import Base Constants Naki Decision GameInfo Agari Process SpecMeld SpecTokens SpecRound SpecTurn SpecShanten
  RoundFacts RoundQuery PropsTurn SpecFuriten.
Import ListNotations.
Open Scope Z_scope.

Lemma no_offer s w p : no_ron s w p -> ~ ron_offered s w p.
Proof. intros (so & ds & l & i & r & A & B) (so' & ds' & l' & i' & r' & A' & B'). rewrite A in A'. injection A' as _ <- _ _. rewrite B in B'. discriminate. Qed.

(** What is done, for a library that goes by any rule [wins]: after a discard of tile [t] a ron
    is offered to exactly the other players who have not discarded this type and whose hand is
    completed by it. *)
Theorem C111_exact_partial : forall (wins : list Z -> Prop) L go e0 evs n s pls w t p, runs L go e0 evs n s (pls ++ [PlDiscard w t]) -> 0 <= p < 4 ->
  (forall q h, asks_hand h q -> (l_agari L q = Ok true <-> wins h)) ->
  (ron_offered s w p <-> p <> w /\ ~ furiten p t pls /\ wins (vadd (vec (s_htf s) p) (Z.to_nat (tid t / 4)) 1)).
Proof.
  intros wins L go e0 evs n s pls w t p R Hp HL. destruct (ron_query _ _ _ _ _ _ _ _ _ R p Hp) as [A B]. split.
  - intros O. assert (N : p <> w) by (intros E; exact (no_offer _ _ _ (A (or_introl E)) O)).
    assert (F : ~ furiten p t pls) by (intros E; exact (no_offer _ _ _ (A (or_intror E)) O)).
    split; [exact N|]. split; [exact F|]. destruct (B N F) as (q & (b & so & ds & l & i & r & Q & H1 & H2) & _ & Ah & _). apply (HL q _ Ah).
    destruct O as (so' & ds' & l' & i' & r' & A' & B'). rewrite H1 in A'. injection A' as _ <- _ _. rewrite H2 in B'. destruct b; [exact Q|discriminate].
  - intros (N & F & W). destruct (B N F) as (q & (b & so & ds & l & i & r & Q & H1 & H2) & _ & Ah & _). apply (HL q _ Ah) in W.
    rewrite W in Q. injection Q as <-. exists so, ds, l, i, r. auto.
Qed.
Print Assumptions C111_exact_partial.

(** The same for robbing a kan: after an added kan the fourth tile is treated like a discard. *)
Theorem C111_chankan_exact_partial : forall (wins : list Z -> Prop) L go e0 evs n s pls w c p, is_kakan c = true -> runs L go e0 evs n s (pls ++ [PlCall w c]) -> 0 <= p < 4 ->
  (forall q h, asks_hand h q -> (l_agari L q = Ok true <-> wins h)) ->
  (ron_offered s w p <-> p <> w /\ ~ furiten p (hd 0 (shown_by c)) pls /\ wins (vadd (vec (s_htf s) p) (Z.to_nat (tid (hd 0 (shown_by c)) / 4)) 1)).
Proof.
  intros wins L go e0 evs n s pls w c p K R Hp HL. destruct (chankan_query _ _ _ _ _ _ _ _ _ K R p Hp) as [A B]. split.
  - intros O. assert (N : p <> w) by (intros E; exact (no_offer _ _ _ (A (or_introl E)) O)).
    assert (F : ~ furiten p (hd 0 (shown_by c)) pls) by (intros E; exact (no_offer _ _ _ (A (or_intror E)) O)).
    split; [exact N|]. split; [exact F|]. destruct (B N F) as (q & (b & so & ds & l & i & r & Q & H1 & H2) & _ & Ah & _). apply (HL q _ Ah).
    destruct O as (so' & ds' & l' & i' & r' & A' & B'). rewrite H1 in A'. injection A' as _ <- _ _. rewrite H2 in B'. destruct b; [exact Q|discriminate].
  - intros (N & F & W). destruct (B N F) as (q & (b & so & ds & l & i & r & Q & H1 & H2) & _ & Ah & _). apply (HL q _ Ah) in W.
    rewrite W in Q. injection Q as <-. exists so, ds, l, i, r. auto.
Qed.
Print Assumptions C111_chankan_exact_partial.

(** So a player who waits for one type only and has discarded it is offered none. *)
Theorem C111_single_wait_partial : forall (wins : list Z -> Prop) L go e0 evs n s pls w t p, runs L go e0 evs n s (pls ++ [PlDiscard w t]) -> 0 <= p < 4 ->
  (forall q h, asks_hand h q -> l_agari L q = Ok true -> wins h) ->
  own_discard wins (vec (s_htf s) p) p pls ->
  (forall j k, completed_by wins (vec (s_htf s) p) j -> completed_by wins (vec (s_htf s) p) k -> j = k) ->
  ~ ron_offered s w p.
Proof.
  intros wins L go e0 evs n s pls w t p R Hp HL (x & Ix & Cx) U O. destruct (ron_query _ _ _ _ _ _ _ _ _ R p Hp) as [A B].
  assert (N : p <> w) by (intros E; exact (no_offer _ _ _ (A (or_introl E)) O)).
  assert (F : ~ furiten p t pls) by (intros E; exact (no_offer _ _ _ (A (or_intror E)) O)).
  destruct (B N F) as (q & (b & so & ds & l & i & r & Q & H1 & H2) & _ & Ah & _).
  destruct O as (so' & ds' & l' & i' & r' & A' & B'). rewrite H1 in A'. injection A' as _ <- _ _. rewrite H2 in B'. destruct b; [|discriminate].
  apply F. exists x. split; [exact Ix|]. apply U; [exact Cx|]. split; [|exact (HL q _ Ah Q)].
  unfold tid. pose proof (Z.mod_pos_bound t 136 ltac:(lia)). split; [apply Z.div_pos; lia|apply Z.div_lt_upper_bound; lia].
Qed.
Print Assumptions C111_single_wait_partial.

(** ** Furiten players are offered wins *)

(** Player 1 holds 23m 123456p 789s and two white dragons, and waits for 1m and 4m. *)
Definition two_waits : event :=
  MkEvent "INIT" [("seed","1,0,0,2,3,108"); ("ten","250,250,250,250"); ("oya","1"); ("hai0","16,17,18,19,20,21,22,23,24,25,26,27,28"); ("hai1","4,8,36,40,44,48,53,56,96,100,104,124,125"); ("hai2","60,61,62,63,64,65,66,67,68,69,70,71,72"); ("hai3","76,77,78,79,80,81,82,83,84,85,86,87,88")]%string.
(** A library that says yes to this hand with 1m or 4m and no to all others. *)
Definition two_wins : libs :=
  telling (fun q => (String.eqb (q_man q) "123" || String.eqb (q_man q) "234") && String.eqb (q_pin q) "123456" && String.eqb (q_sou q) "789" && String.eqb (q_honors q) "55")%string.
Definition waiting : list Z := [0;1;1;0;0;0;0;0;0; 1;1;1;1;1;1;0;0;0; 0;0;0;0;0;0;1;1;1; 0;0;0;0;2;0;0; 0;0;0].
Definition standard (h : list Z) : Prop := standard_win h 4.

Lemma waiting_wins k : k = 0 \/ k = 3 -> completed_by standard waiting k.
Proof.
  intros [-> | ->]; (split; [lia|]).
  - exists [Run 0; Run 9; Run 12; Run 24], 31%nat. split; [reflexivity|]. split; [repeat constructor; cbn; lia|]. split; [lia|].
    intros t Ht. do 34 (destruct t as [|t]; [reflexivity|]). lia.
  - exists [Run 1; Run 9; Run 12; Run 24], 31%nat. split; [reflexivity|]. split; [repeat constructor; cbn; lia|]. split; [lia|].
    intros t Ht. do 34 (destruct t as [|t]; [reflexivity|]). lia.
Qed.

(** Every hand the library says yes to is won. *)
Definition honest (L : libs) : Prop := forall q, l_agari L q = Ok true -> exists h, asks_hand h q /\ standard h.
Lemma two_wins_honest : honest two_wins.
Proof.
  intros q H. cbn [l_agari two_wins telling] in H. apply (f_equal (fun r => match r with Ok b => b | Err _ => false end)) in H.
  apply andb_prop in H as [H H4]. apply andb_prop in H as [H H3]. apply andb_prop in H as [H1 H2].
  apply String.eqb_eq in H2, H3, H4. apply orb_prop in H1 as [H1|H1]; apply String.eqb_eq in H1.
  - exists (vadd waiting 0 1). split; [unfold asks_hand; rewrite H1, H2, H3, H4; reflexivity|]. apply (waiting_wins 0). auto.
  - exists (vadd waiting 3 1). split; [unfold asks_hand; rewrite H1, H2, H3, H4; reflexivity|]. apply (waiting_wins 3). auto.
Qed.

(** Player 1 has discarded 1m and is offered a ron on 4m. *)
Theorem C111_refuted_own_discard : exists L go e0 evs n s pls w t p, honest L /\ runs L go e0 evs n s (pls ++ [PlDiscard w t]) /\ 0 <= p < 4 /\
  own_discard standard (vec (s_htf s) p) p pls /\ ron_offered s w p.
Proof.
  exists two_wins, 169, two_waits, [MkEvent "U0" []; MkEvent "E0" []; MkEvent "V12" []; MkEvent "F12" []]. eexists _, _, [PlDraw 1 0; PlDiscard 1 0; PlDraw 2 12], 2, 12, 1.
  split; [apply two_wins_honest|]. split; [run|]. split; [lia|]. split.
  - exists 0. split; [now left|]. apply (waiting_wins 0). auto.
  - do 5 eexists. split; reflexivity.
Qed.
Print Assumptions C111_refuted_own_discard.

(** Player 1 lets the 1m of player 2 pass and is offered a ron on the 4m of player 3; the
    second time after riichi. *)
Theorem C111_refuted_let_pass : exists L go e0 evs n s pls w t p, honest L /\ runs L go e0 evs n s (pls ++ [PlDiscard w t]) /\ 0 <= p < 4 /\
  let_pass standard (vec (s_htf s) p) p pls /\ ron_offered s w p.
Proof.
  exists two_wins, 169, two_waits, [MkEvent "U112" []; MkEvent "E112" []; MkEvent "V0" []; MkEvent "F0" []; MkEvent "W12" []; MkEvent "G12" []].
  eexists _, _, [PlDraw 1 112; PlDiscard 1 112; PlDraw 2 0; PlDiscard 2 0; PlDraw 3 12], 3, 12, 1.
  split; [apply two_wins_honest|]. split; [run|]. split; [lia|]. split.
  - exists [PlDraw 1 112; PlDiscard 1 112; PlDraw 2 0], 2, 0, [PlDraw 3 12]. split; [reflexivity|]. split; [lia|]. split; [apply (waiting_wins 0); auto|]. repeat constructor; lia.
  - do 5 eexists. split; reflexivity.
Qed.
Print Assumptions C111_refuted_let_pass.
Theorem C111_refuted_riichi : exists L go e0 evs n s pls w t p, honest L /\ runs L go e0 evs n s (pls ++ [PlDiscard w t]) /\ 0 <= p < 4 /\
  let_pass_in_riichi standard (vec (s_htf s) p) p pls /\ ~ let_pass standard (vec (s_htf s) p) p pls /\ ron_offered s w p.
Proof.
  exists two_wins, 169, two_waits, [MkEvent "U112" []; MkEvent "REACH" [("who", "1"); ("step", "1")]%string; MkEvent "E112" []; MkEvent "REACH" [("who", "1"); ("step", "2")]%string;
    MkEvent "V0" []; MkEvent "F0" []; MkEvent "U113" []; MkEvent "E113" []; MkEvent "V12" []; MkEvent "F12" []].
  eexists _, _, [PlDraw 1 112; PlReach1 1; PlDiscard 1 112; PlReach2 1; PlDraw 2 0; PlDiscard 2 0; PlDraw 1 113; PlDiscard 1 113; PlDraw 2 12], 2, 12, 1.
  split; [apply two_wins_honest|]. split; [run|]. split; [lia|]. split; [|split].
  - exists [PlDraw 1 112; PlReach1 1; PlDiscard 1 112], [PlDraw 2 0], 2, 0, [PlDraw 1 113; PlDiscard 1 113; PlDraw 2 12]. split; [reflexivity|apply (waiting_wins 0); auto].
  - intros (h1 & w & x & h2 & E & N & _ & F).
    repeat (destruct h1 as [|? h1]; cbn [app] in E; [first [discriminate E|injection E as <- <- <-; repeat match goal with H : Forall _ (_ :: _) |- _ => inversion H; subst; clear H end; congruence]|]; injection E as _ E); destruct h1; discriminate E.
  - do 5 eexists. split; reflexivity.
Qed.
Print Assumptions C111_refuted_riichi.

(** The partial theorems apply: a library that goes by a rule, in a round in which player 1
    waits for 3m only, has discarded one and is not offered a ron on the next. *)
Definition one_wait : event :=
  MkEvent "INIT" [("seed","1,0,0,2,3,108"); ("ten","250,250,250,250"); ("oya","1"); ("hai0","16,17,18,19,20,21,22,23,24,25,26,27,28"); ("hai1","4,12,36,40,44,48,53,56,96,100,104,124,125"); ("hai2","60,61,62,63,64,65,66,67,68,69,70,71,72"); ("hai3","76,77,78,79,80,81,82,83,84,85,86,87,88")]%string.
Definition rule (h : list Z) : Prop := hand_tensor2strs h = ("234", "123456", "789", "55")%string.
Definition one_win : libs :=
  telling (fun q => String.eqb (q_man q) "234" && String.eqb (q_pin q) "123456" && String.eqb (q_sou q) "789" && String.eqb (q_honors q) "55")%string.
Lemma one_win_rule : forall q h, asks_hand h q -> (l_agari one_win q = Ok true <-> rule h).
Proof.
  intros q h A. unfold asks_hand in A. unfold rule. rewrite <- A. cbn [l_agari one_win telling]. split.
  - intros H. apply (f_equal (fun r => match r with Ok b => b | Err _ => false end)) in H.
    apply andb_prop in H as [H H4]. apply andb_prop in H as [H H3]. apply andb_prop in H as [H1 H2].
    apply String.eqb_eq in H1, H2, H3, H4. now rewrite H1, H2, H3, H4.
  - intros H. injection H as -> -> -> ->. reflexivity.
Qed.

Example C111_example : exists n s pls, runs one_win 169 one_wait [MkEvent "U8" []; MkEvent "E8" []; MkEvent "V9" []; MkEvent "F9" []] n s (pls ++ [PlDiscard 2 9]) /\
  own_discard rule (vec (s_htf s) 1) 1 pls /\
  (forall j k, completed_by rule (vec (s_htf s) 1) j -> completed_by rule (vec (s_htf s) 1) k -> j = k) /\ ~ ron_offered s 2 1.
Proof.
  eexists _, _, [PlDraw 1 8; PlDiscard 1 8; PlDraw 2 9].
  assert (U : forall j, completed_by rule (vadd (vadd (vadd waiting 2 (-1)) 2 0) 3 1) j -> j = 2).
  { intros j (J & H). assert (D : In j (map Z.of_nat (seq 0 34))) by (replace j with (Z.of_nat (Z.to_nat j)) by lia; apply in_map, in_seq; lia).
    cbn in D. repeat (destruct D as [<-|D]; [first [reflexivity|discriminate H]|]). destruct D. }
  match goal with |- ?A /\ ?B /\ ?C /\ ?D => assert (HA : A) by run; assert (HB : B);
    [exists 8; split; [now left|]; split; [change (0 <= 2 < 34); lia|vm_compute; reflexivity]|assert (HC : C); [intros j k J K; rewrite (U j J), (U k K); reflexivity|]] end.
  split; [exact HA|]. split; [exact HB|]. split; [exact HC|].
  eapply (C111_single_wait_partial rule one_win 169 one_wait); [exact HA|lia|intros q h A; apply one_win_rule, A|exact HB|exact HC].
Qed.
