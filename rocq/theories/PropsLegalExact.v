(** C134: which rounds are rejected.  The vocabulary is in SpecLegal.v, proofs are in RoundExact.v. *)
From Coq Require Import ZArith List Bool String Lia.
From Verif Require Import Base Constants Naki Decision GameInfo Agari Process SpecMeld SpecTokens SpecRound SpecLegal
  RoundExamples RoundProgress RoundLegal RoundExact PropsRound PropsLegal.
Import ListNotations.
Open Scope Z_scope.

(** Whatever the plays are, a round whose deal can be read is processed to the end exactly if every player
    is dealt thirteen different tiles, every play passes the checks when it comes, the tiles suffice and
    every result has its scores. *)
Theorem C134_exact_partial : forall L go e0 evs pls results, libs_answer L -> readable_deal e0 -> events_of evs pls -> Forall meaningful pls ->
  results <> [] -> Forall result_event results ->
  (exists out, process_round L go (e0 :: evs ++ results) = Ok out) <-> full_hands e0 /\ passes_checks e0 pls /\ enough_tiles e0 pls /\ Forall scored results.
Proof. intros L go e0 evs pls results An. exact (exact_deal L go e0 evs pls results An). Qed.
Print Assumptions C134_exact_partial.
(** Neither the libraries nor the type of game matter. *)
Theorem C134_same_for_all : forall L1 L2 go1 go2 e0 evs pls results, libs_answer L1 -> libs_answer L2 -> readable_deal e0 -> events_of evs pls -> Forall meaningful pls ->
  results <> [] -> Forall result_event results ->
  (exists out, process_round L1 go1 (e0 :: evs ++ results) = Ok out) <-> (exists out, process_round L2 go2 (e0 :: evs ++ results) = Ok out).
Proof.
  intros L1 L2 go1 go2 e0 evs pls results A1 A2 Rd Ev Me Nr Fr. rewrite (C134_exact_partial L1 go1 e0 evs pls results) by assumption. rewrite (C134_exact_partial L2 go2 e0 evs pls results) by assumption. reflexivity.
Qed.
Print Assumptions C134_same_for_all.

Definition meaningfulb (a : play) : bool := match a with
  | PlDraw w t | PlDiscard w t => seatb w && ((0 <=? t) && (t <? 136)) | PlCall w c => seatb w && code_ok c | PlReach1 w | PlReach2 w => seatb w | PlDora t => (0 <=? t) && (t <? 136) end.
Lemma meaningfulb_ok l : forallb meaningfulb l = true -> Forall meaningful l.
Proof.
  intros H. apply Forall_forall. intros a I. rewrite forallb_forall in H. specialize (H a I). destruct a; cbn [meaningfulb meaningful] in *; unfold valid_id; try (apply andb_prop in H as [H1 H2]); unfold seatb in *; try lia.
  split; [lia|now apply code_ok_range].
Qed.
(** The rules a round may break without being rejected. *)
Definition plays_in (evs : list event) : list play := flat_map (fun e => match play_of e with Some a => [a] | None => [] end) evs.
Definition deal_of (hand2 : string) : event := MkEvent "INIT" [("seed","0,0,1,2,3,132"); ("ten","250,240,250,250"); ("oya","0"); ("hai0","0,1,2,16,20,24,36,40,44,110,112,116,120"); ("hai1","108,109,37,41,45,49,53,57,61,65,69,73,77"); ("hai2", hand2); ("hai3","5,9,13,17,21,25,29,33,38,42,46,50,54")]%string.
Definition usual : event := deal_of "72,76,80,84,88,92,96,100,104,4,8,12,113".
Definition ended : list event := [MkEvent "RYUUKYOKU" [("sc","0,0,0,0")]]%string.
(** the tile 124 is drawn twice *)
Definition drawn_twice : list event := [MkEvent "T124" []; MkEvent "D124" []; MkEvent "U124" []; MkEvent "E124" []]%string.
(** player 1 claims tile 110 although tile 112 was discarded *)
Definition claims_other : list event := [MkEvent "T124" []; MkEvent "D112" []; MkEvent "N" [("who","1"); ("m","42603")]; MkEvent "E77" []]%string.
(** player 3 pays for a riichi that player 2 declared *)
Definition pays_other : list event := [MkEvent "V124" []; MkEvent "REACH" [("who","2"); ("step","1")]; MkEvent "F124" []; MkEvent "REACH" [("who","3"); ("step","2")]]%string.
(** player 1 declares riichi in the turn of player 0 *)
Definition out_of_turn : list event := [MkEvent "T124" []; MkEvent "REACH" [("who","1"); ("step","1")]; MkEvent "D124" []]%string.
Definition accepted_breach (e0 : event) (evs : list event) : Prop :=
  proper_deal e0 /\ events_of evs (plays_in evs) /\ Forall meaningful (plays_in evs) /\ (exists out, process_round ex_libs 169 (e0 :: evs ++ ended) = Ok out) /\
  ~ (fair_deal e0 /\ by_the_rules e0 (plays_in evs)).
Lemma distinctb_complete l : NoDup l -> distinctb l = true.
Proof.
  induction 1 as [|x l N _ IH]; [reflexivity|]. cbn [distinctb]. rewrite IH, andb_true_r. apply negb_true_iff. destruct (memb x l) eqn:E; [|reflexivity]. apply memb_in in E. contradiction.
Qed.
Lemma usual_fair : fair_deal usual.
Proof. apply fair_dealb_ok. vm_compute. reflexivity. Qed.
(** The property "a round that breaks the rules is rejected" is false: *)
Theorem C134_refuted : accepted_breach usual drawn_twice /\ accepted_breach usual claims_other /\ accepted_breach usual pays_other /\ accepted_breach usual out_of_turn /\
  (* tile 5 is dealt to two players *)
  accepted_breach (deal_of "72,76,80,84,88,92,96,100,104,5,8,12,113") [].
Proof.
  assert (P : proper_deal usual) by exact (fair_proper _ usual_fair).
  assert (S : forall evs, forallb (fun e => match play_of e with Some _ => true | None => false end) evs = true -> events_of evs (plays_in evs)) by exact some_plays.
  split; [|split; [|split; [|split]]].
  - split; [exact P|]. split; [apply S; vm_compute; reflexivity|]. split; [apply meaningfulb_ok; vm_compute; reflexivity|]. split; [eexists; vm_compute; reflexivity|].
    intros [_ B]. destruct (B [PlDraw 0 124; PlDiscard 0 124] (PlDraw 1 124) [PlDiscard 1 124] eq_refl) as (_ & (_ & W) & _). apply W. vm_compute. tauto.
  - split; [exact P|]. split; [apply S; vm_compute; reflexivity|]. split; [apply meaningfulb_ok; vm_compute; reflexivity|]. split; [eexists; vm_compute; reflexivity|].
    intros [_ B]. destruct (B [PlDraw 0 124; PlDiscard 0 112] (PlCall 1 42603) [PlDiscard 1 77] eq_refl) as (_ & _ & _ & W). vm_compute in W. destruct W as (d & t & E & _ & C). injection E as _ <-. discriminate C.
  - split; [exact P|]. split; [apply S; vm_compute; reflexivity|]. split; [apply meaningfulb_ok; vm_compute; reflexivity|]. split; [eexists; vm_compute; reflexivity|].
    intros [_ B]. destruct (B [PlDraw 2 124; PlReach1 2; PlDiscard 2 124] (PlReach2 3) [] eq_refl) as (_ & t & W). vm_compute in W. discriminate W.
  - split; [exact P|]. split; [apply S; vm_compute; reflexivity|]. split; [apply meaningfulb_ok; vm_compute; reflexivity|]. split; [eexists; vm_compute; reflexivity|].
    intros [_ B]. destruct (B [PlDraw 0 124] (PlReach1 1) [PlDiscard 0 124] eq_refl) as (_ & W). vm_compute in W. discriminate W.
  - split.
    { destruct P as (P1 & P2 & P3 & P4 & P5). split; [reflexivity|]. split; [exact P2|]. split; [exact P3|]. split; [exact P4|]. intros p Hp.
      do 4 (destruct p as [|p]; [eexists; split; [eexists; split; vm_compute; reflexivity|]; split; [reflexivity|]; split; [repeat (constructor; [unfold valid_id; lia|]); constructor|apply distinctb_ok; vm_compute; reflexivity]|]). lia. }
    split; [apply S; reflexivity|]. split; [constructor|]. split; [eexists; vm_compute; reflexivity|].
    intros [(_ & _ & _ & _ & _ & N) _]. apply distinctb_complete in N. vm_compute in N. discriminate N.
Qed.
Print Assumptions C134_refuted.

(** The example round meets the hypotheses of the exact rule, so it passes the checks. *)
Example C134_example : passes_checks (hd (MkEvent "" []) small_round) small_plays /\ enough_tiles (hd (MkEvent "" []) small_round) small_plays.
Proof.
  destruct (C134_exact_partial ex_libs 169 (hd (MkEvent "" []) small_round) small_events small_plays ended ex_libs_answer) as [H _].
  - destruct (fair_dealb_ok (hd (MkEvent "" []) small_round)) as (A & B & C & D & E & _); [vm_compute; reflexivity|]. repeat (split; [assumption|]).
    intros p Hp. destruct (E p Hp) as (tiles & T & _ & V). eauto.
  - apply some_plays. vm_compute. reflexivity.
  - apply meaningfulb_ok. vm_compute. reflexivity.
  - discriminate.
  - constructor; [right; reflexivity|constructor].
  - destruct H as (_ & A & B & _); [|auto]. exact (C132_round_accepted ex_libs 169 small_round ex_libs_answer small_legal).
Qed.
