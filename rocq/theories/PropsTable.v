(** C91-C92: the table situation and the ippatsu flags shown by the samples.  Vocabulary:
    SpecTable.v; [moments] (SpecRound.v) gives, for each half-turn, the number of plays up
    to the last draw or call. *)
From Coq Require Import ZArith List Bool String Lia.
From Verif Require Import Base Constants Naki Decision GameInfo Process Tensor VecLemmas SpecMeld SpecTokens SpecRound SpecTurn SpecTensor SpecTable
  RoundExamples RoundLemmas RoundInv RoundFlags RoundSplit RoundHalf RoundFacts RoundCount TurnFacts TensorLemmas TensorRound TableFacts PropsTensor.
Import ListNotations.
Open Scope Z_scope.

Lemma four (l : list Z) : List.length l = 4%nat -> l = map (fun p => vget l (Z.to_nat p)) seats.
Proof. intros H. destruct l as [|a [|b [|c [|d [|]]]]]; try discriminate H. reflexivity. Qed.
Lemma converted_sizes a v f : convert_state a v = Ok f -> List.length (so_scores (sv_obj v)) = 4%nat.
Proof.
  unfold convert_state. intros H. apply bind_ok in H as (ch & _ & H). apply bind_ok in H as (u & E & _).
  destruct (forallb _ _) eqn:F in E; [|discriminate E]. cbn [forallb] in F. apply andb_prop in F as [F _]. now apply Nat.eqb_eq in F.
Qed.
Lemma sticks_in p pls : (0 <? sticks p pls) = true <-> In (PlReach2 p) pls.
Proof.
  unfold sticks. rewrite Z.ltb_lt. split.
  - intros H. destruct (filter _ pls) as [|e l] eqn:E; [cbn in H; lia|]. assert (I : In e (e :: l)) by now left. rewrite <- E in I.
    apply filter_In in I as [I M]. destruct e; try discriminate M. apply Z.eqb_eq in M. now subst.
  - intros I. assert (J : In (PlReach2 p) (filter (fun e => match e with PlReach2 q => q =? p | _ => false end) pls)) by (apply filter_In; split; [exact I|apply Z.eqb_refl]).
    destruct (filter _ pls); [destruct J|cbn [List.length]; lia].
Qed.

Lemma table_ok L go e0 evs n s pls : runs L go e0 evs n s pls -> List.length (s_scores s) = 4%nat ->
  s_scores s = map (fun p => vget (initial_scores e0) (Z.to_nat p) - 10 * sticks p pls) seats /\
  s_reaches s = map (fun p => if 0 <? sticks p pls then 1 else 0) seats /\
  s_rtsumo s = 70 - draws pls - kans pls - new_doras pls /\ s_kyotaku s = initial_sticks e0 + all_sticks pls.
Proof.
  intros R H4. destruct (score_inv_holds _ _ _ _ _ _ _ R) as (L1 & S1 & S2 & _). destruct (count_inv_holds _ _ _ _ _ _ _ R) as [C1 _].
  assert (W : wf s) by (eapply (runs_inv_full _ _ _ _ _ _ _ (fun _ _ => True)) in R; [exact (proj2 R)|auto|auto]).
  split; [|split; [|split; [exact C1|exact S2]]].
  - rewrite (four _ H4). apply map_ext_in. intros p Hp. assert (P : 0 <= p < 4) by (unfold seats in Hp; cbn in Hp; lia).
    rewrite S1 by (rewrite <- L1, H4; lia). now rewrite Z2Nat.id by lia.
  - assert (LR : List.length (s_reaches s) = 4%nat) by apply W.
    rewrite (four _ LR) at 1. apply map_ext_in. intros p Hp. assert (P : 0 <= p < 4) by (unfold seats in Hp; cbn in Hp; lia).
    destruct (flags_exact _ _ _ _ _ _ _ p R P) as (F1 & F2 & _). unfold flag in *.
    destruct (0 <? sticks p pls) eqn:E; [apply F1, sticks_in, E|]. apply F2. intros I. apply sticks_in in I. congruence.
Qed.

Lemma half_table L go e0 rest half tokens pls : process_round L go (e0 :: rest) = Ok (half, tokens) -> plays_of_round (e0 :: rest) pls ->
  Forall2 (fun m h => forall a f, convert_state a (state_of h) = Ok f -> shows_table go e0 (firstn m pls) f /\
     nth 5 (f_x2 f) [] = so_ippatsu (sv_obj (state_of h)) /\ ipp_shown (firstn m pls) (sv_obj (state_of h))) (moments 0 0 pls) half.
Proof.
  intros H P. destruct (round_runs _ _ _ _ _ _ _ H P) as (plays & n & s & R & -> & _). clear H P.
  destruct R as (s0 & E0 & R'). pose proof (env_exact _ _ _ _ E0) as (N1 & N2 & N3 & N4). assert (R : runs L go e0 plays n s pls) by (exists s0; auto). clear R' E0.
  pose proof (recorded_states _ _ _ _ _ _ _ R) as F. destruct (ipo_holds _ _ _ _ _ _ _ R) as (_ & _ & G).
  revert F G. generalize (moments 0 0 pls) (rev (s_half s)). intros ms hs F. induction F as [|m h ms hs (s1 & p & R1 & Q) _ IH]; cbn [map]; intros G; constructor; [|apply IH; now inversion G].
  inversion G as [|? ? ? ? G1 _]; subst. clear IH G. intros a f C. pose proof (converted_sizes _ _ _ C) as H4.
  destruct (half_state s h) as (X & _). destruct (features_ok _ _ _ C) as (Y2 & Y3 & _). rewrite X in *. clear C.
  apply snapshot_fields in Q as (Q1 & Q2 & Q3 & Q4 & Q5 & Q6 & Q7 & Q8 & Q9 & Q10 & Q11 & Q12 & _).
  split; [|split; [now rewrite Y2|exact G1]]. rewrite Q1 in H4. destruct (table_ok _ _ _ _ _ _ _ R1 H4) as (T1 & T2 & T3 & T4).
  unfold shows_table. rewrite Y2, Y3. cbn [nth]. rewrite Q1, Q2, Q4, Q6, Q9, Q10, Q11, Q12, N1, N2, N3, N4, T3, T4.
  split; [exact T1|]. split; [reflexivity|]. split; [|split; [exact T2|reflexivity]].
  intros B. apply map_ext_in. intros q Hq. symmetry. apply deals_count; [exact B| |unfold seats in Hq; cbn in Hq; lia].
  unfold game_length. now destruct (_ =? 1).
Qed.

Lemma Forall2_In_r {A B} (R : A -> B -> Prop) l r : Forall2 R l r -> forall y, In y r -> exists x, In x l /\ R x y.
Proof.
  induction 1 as [|x y l r H _ IH]; intros z J; [destruct J|]. destruct J as [->|J]; [exists x; split; [now left|exact H]|].
  destruct (IH z J) as (w & A1 & A2). exists w. split; [now right|exact A2].
Qed.

(** ** C91 *)
(** Every sample of every model shows the table after some draw or call, the last one
    before the decision. *)
Theorem C91_table : forall L go e0 rest half tokens pls a t, process_round L go (e0 :: rest) = Ok (half, tokens) -> plays_of_round (e0 :: rest) pls ->
  build_tensors a half tokens = Ok t ->
  Forall2 (fun m h => forall f, convert_state a (state_of h) = Ok f -> shows_table go e0 (firstn m pls) f) (moments 0 0 pls) half /\
  Forall (fun r => exists m h, In (m, h) (combine (moments 0 0 pls) half) /\ convert_state a (state_of h) = Ok (r_state r) /\
     shows_table go e0 (firstn m pls) (r_state r)) (t_during t ++ t_discard t ++ t_post t).
Proof.
  intros L go e0 rest half tokens pls a t H P B. pose proof (half_table _ _ _ _ _ _ _ H P) as F. destruct (accepted_formed _ _ _ _ _ _ _ H P) as (W & I & _).
  split; [eapply Forall2_impl; [|exact F]; intros m h X f C; exact (proj1 (X a f C))|].
  destruct (C75_source _ _ _ _ B W I) as (D1 & D2 & rows & E & D3).
  assert (Q : forall r h, In h half -> convert_state a (state_of h) = Ok (r_state r) ->
    exists m h, In (m, h) (combine (moments 0 0 pls) half) /\ convert_state a (state_of h) = Ok (r_state r) /\ shows_table go e0 (firstn m pls) (r_state r)).
  { intros r h J C. clear - F J C. revert F J. generalize (moments 0 0 pls) half. intros ms hs F. induction F as [|m x ms hs X _ IH]; intros J; [destruct J|].
    destruct J as [->|J]; [exists m, h; split; [now left|]; split; [exact C|]; exact (proj1 (X _ _ C))|].
    destruct (IH J) as (m' & h' & A1 & A2). exists m', h'. split; [now right|exact A2]. }
  rewrite E. apply Forall_app. split; [|apply Forall_app; split].
  - apply Forall_forall. intros r J. destruct (Forall2_In_r _ _ _ D1 r J) as (h & Jh & C). apply (Q r h); [|exact C]. exact (proj1 (proj1 (filter_In _ _ _) Jh)).
  - apply Forall_forall. intros r J. destruct (Forall2_In_r _ _ _ D2 r J) as (h & Jh & C). apply (Q r h); [|exact C]. exact (proj1 (proj1 (filter_In _ _ _) Jh)).
  - apply Forall_forall. intros r J. apply in_concat in J as (rs & Jr & J). destruct (Forall2_In_r _ _ _ D3 rs Jr) as (h & Jh & C). rewrite Forall_forall in C.
    apply (Q r h); [|exact (C r J)]. exact (proj1 (proj1 (filter_In _ _ _) Jh)).
Qed.
Print Assumptions C91_table.

(** The made-up round, played as round 9 of a game of eight (the game went into overtime). *)
Definition overtime : list event :=
  match small_round with
  | MkEvent g _ :: r => MkEvent g [("seed","9,2,1,2,3,132"); ("ten","250,240,250,250"); ("oya","1"); ("hai0","0,1,2,16,20,24,36,40,44,110,112,116,120"); ("hai1","108,109,37,41,45,49,53,57,61,65,69,73,77"); ("hai2","72,76,80,84,88,92,96,100,104,4,8,12,113"); ("hai3","5,9,13,17,21,25,29,33,38,42,46,50,54")]%string :: r
  | [] => []
  end.
(** Then the numbers of rounds left are negative, and the dealer has none. *)
Theorem C91_overtime : exists L go e0 rest half tokens a t r, process_round L go (e0 :: rest) = Ok (half, tokens) /\ build_tensors a half tokens = Ok t /\
  In r (t_during t) /\ dealer e0 = 1 /\ nth 2 (f_x2 (r_state r)) [] = [-1; 0; 0; 0] /\ nth 3 (f_x3 (r_state r)) 0 = -1.
Proof.
  destruct (sample_round_ok ex_libs TF overtime (fun h tk t => match t_during t with r :: _ => (if list_eq_dec Z.eq_dec (nth 2 (f_x2 (r_state r)) []) [-1; 0; 0; 0] then true else false) && (nth 3 (f_x3 (r_state r)) 0 =? -1) | [] => false end))
    as (h & tk & t & E1 & E2 & E3); [vm_compute; reflexivity|].
  destruct (t_during t) as [|r l] eqn:Er; [discriminate E3|]. apply andb_prop in E3 as [E3 E4]. destruct (list_eq_dec _ _ _) as [E5|] in E3; [|discriminate E3]. apply Z.eqb_eq in E4.
  exists ex_libs, 169, (hd (MkEvent "" []) overtime), (tl overtime), h, tk, TF, t, r. split; [exact E1|]. split; [exact E2|].
  split; [rewrite Er; now left|]. split; [vm_compute; reflexivity|]. auto.
Qed.
Print Assumptions C91_overtime.
Example C91_example : option_map (fun x => match x with (_, _, t) => map (fun r => (nth 0 (f_x2 (r_state r)) [], nth 1 (f_x2 (r_state r)) [], nth 2 (f_x2 (r_state r)) [], f_x3 (r_state r))) (skipn 4 (t_during t)) end) (sample_round ex_libs ORDERED small_round)
  = Some [([250; 240; 240; 250], [1; 0; 0; 0], [2; 2; 2; 2], [63; 2; 0; 8])].
Proof. vm_compute. reflexivity. Qed.

(** ** C92 *)
(** The ippatsu entries of a sample mark the players whose riichi was followed by exactly
    one draw (by somebody else) or call before the decision. *)
Theorem C92_exact_partial : forall L go e0 rest half tokens pls, process_round L go (e0 :: rest) = Ok (half, tokens) -> plays_of_round (e0 :: rest) pls ->
  Forall2 (fun m h => forall a f, convert_state a (state_of h) = Ok f ->
     List.length (nth 5 (f_x2 f) []) = 4%nat /\
     forall p, 0 <= p < 4 -> (flag (nth 5 (f_x2 f) []) p = 1 /\ right_after_riichi p (firstn m pls)) \/
                             (flag (nth 5 (f_x2 f) []) p = 0 /\ ~ right_after_riichi p (firstn m pls))) (moments 0 0 pls) half.
Proof.
  intros L go e0 rest half tokens pls H P. eapply Forall2_impl; [|exact (half_table _ _ _ _ _ _ _ H P)]. intros m h X a f C.
  destruct (X a f C) as (_ & -> & Y). exact Y.
Qed.
Print Assumptions C92_exact_partial.
(** So a player is marked for one turn at most, and nobody on their own draw. *)
Theorem C92_not_on_own_draw : forall L go e0 rest half tokens pls, process_round L go (e0 :: rest) = Ok (half, tokens) -> plays_of_round (e0 :: rest) pls ->
  Forall2 (fun m h => forall a f w t, convert_state a (state_of h) = Ok f -> 0 <= w < 4 ->
     last (firstn m pls) (PlDora 0) = PlDraw w t -> flag (nth 5 (f_x2 f) []) w = 0) (moments 0 0 pls) half.
Proof.
  intros L go e0 rest half tokens pls H P. eapply Forall2_impl; [|exact (C92_exact_partial _ _ _ _ _ _ _ H P)]. intros m h X a f w t C Hw E.
  destruct (X a f C) as (_ & Y). destruct (Y w Hw) as [[_ (h1 & e & E1 & _ & M)]|[Z _]]; [|exact Z].
  rewrite E1, last_last in E. subst e. congruence.
Qed.
Print Assumptions C92_not_on_own_draw.
(** Player 2 declares riichi; the next player draws and discards; at the draw after that
    a win of player 2 would be ippatsu, but the sample does not show it. *)
Theorem C92_refuted : exists L go e0 rest half tokens pls h m f, process_round L go (e0 :: rest) = Ok (half, tokens) /\ plays_of_round (e0 :: rest) pls /\
  In (m, h) (combine (moments 0 0 pls) half) /\ convert_state TF (state_of h) = Ok f /\ ippatsu_chance 2 (firstn m pls) /\ nth 5 (f_x2 f) [] = [0; 0; 0; 0].
Proof.
  pose (e0 := hd (MkEvent "" []) small_round). pose (pls := plays_in (firstn small_plays (tl small_round))).
  assert (E : small_round = e0 :: firstn small_plays (tl small_round) ++ skipn small_plays (tl small_round)) by (apply split_round; [reflexivity|vm_compute; lia]).
  destruct (sample_round_ok ex_libs TF small_round (fun h tk t => match find (fun x => Nat.eqb (fst x) 14) (combine (moments 0 0 pls) h) with
    | Some x => match convert_state TF (state_of (snd x)) with Ok f => if list_eq_dec Z.eq_dec (nth 5 (f_x2 f) []) [0; 0; 0; 0] then true else false | Err _ => false end
    | None => false end)) as (h & tk & t & E1 & E2 & E3); [vm_compute; reflexivity|].
  destruct (find _ _) as [[m x]|] eqn:F; [|discriminate E3]. apply find_some in F as [J M]. cbn [fst snd] in *. apply Nat.eqb_eq in M. subst m.
  destruct (convert_state TF (state_of x)) as [f|] eqn:C; [|discriminate E3]. destruct (list_eq_dec _ _ _) as [Z|] in E3; [|discriminate E3].
  exists ex_libs, 169, e0, (tl small_round), h, tk, pls, x, 14%nat, f. split; [exact E1|].
  split; [change (e0 :: tl small_round) with small_round; rewrite E at 1; apply plays_check; vm_compute; reflexivity|].
  split; [exact J|]. split; [exact C|]. split; [|exact Z].
  exists (firstn 10 pls), [PlDraw 3 125; PlDiscard 3 125; PlDraw 0 126]. split; [vm_compute; reflexivity|]. repeat constructor; discriminate.
Qed.
Print Assumptions C92_refuted.
