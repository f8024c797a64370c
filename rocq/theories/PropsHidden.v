(** C109: what the samples of a player show of the other hands. *)
From Coq Require Import ZArith List Bool String Lia PeanoNat.
From Verif Require Import Base Constants Naki Decision GameInfo Agari Process SpecMeld SpecTokens SpecRound SpecTurn SpecTensor Tensor
  RoundExamples RoundLemmas RoundFacts TensorLemmas TensorRound PropsTensor SpecHidden HiddenLemmas.
Import ListNotations.
Open Scope Z_scope.

(** C109: in two rounds that look the same to a player, that player's own-turn samples and
    discard samples are the same, rows, masks and labels.  The reactions are missing, see
    [C109_refuted]. *)
Theorem C109_own_partial : forall L go p evs evs' half half' tokens tokens' pls pls' a t t', 0 <= p < 4 ->
  looks_same p evs evs' pls pls' -> consistent pls ->
  process_round L go evs = Ok (half, tokens) -> process_round L go evs' = Ok (half', tokens') ->
  build_tensors a half tokens = Ok t -> build_tensors a half' tokens' = Ok t' ->
  filter (fun r => r_player r =? p) (t_during t) = filter (fun r => r_player r =? p) (t_during t') /\
  filter (fun r => r_player r =? p) (t_discard t) = filter (fun r => r_player r =? p) (t_discard t').
Proof.
  intros L go p evs evs' half half' tokens tokens' pls pls' a t t' Hp (e & r & e' & r' & -> & -> & D & P & P' & S) Co H H' B B'.
  pose proof (accepted_formed _ _ _ _ _ _ _ H P) as (_ & _ & M). specialize (M Co).
  destruct (round_runs _ _ _ _ _ _ _ H P) as (plays & n & s & R & -> & -> & _). destruct (round_runs _ _ _ _ _ _ _ H' P') as (plays' & n' & s' & R' & -> & -> & _).
  assert (E : exists q, p = Z.of_nat q /\ (q < 4)%nat) by (exists (Z.to_nat p); lia). destruct E as (q & -> & Hq).
  destruct (runs_like _ _ q _ _ _ _ _ _ _ _ _ _ Hq R R' D S) as (_ & [A F T _]). rewrite <- T in B'.
  exact (rows_like _ _ _ _ _ _ _ _ _ Hq A (half_views _ _ _ F) M B B').
Qed.
Print Assumptions C109_own_partial.

(** For every half-turn, reactions of any player included: the tokens, whose turn it is, the
    discarded tile, the decisions of the player and all features but the hand and the unseen
    tiles of the player whose turn it is are the same. *)
Theorem C109_public_partial : forall L go p evs evs' half half' tokens tokens' pls pls', 0 <= p < 4 ->
  looks_same p evs evs' pls pls' ->
  process_round L go evs = Ok (half, tokens) -> process_round L go evs' = Ok (half', tokens') ->
  tokens = tokens' /\
  Forall2 (fun h h' => half_player h = half_player h' /\ index_of h = index_of h' /\ tile_of h = tile_of h' /\ decisions_for h p = decisions_for h' p /\
    forall a f f', convert_state a (state_of h) = Ok f -> convert_state a (state_of h') = Ok f' ->
      skipn 2 (f_x1 f) = skipn 2 (f_x1 f') /\ f_x2 f = f_x2 f' /\ f_x3 f = f_x3 f') half half'.
Proof.
  intros L go p evs evs' half half' tokens tokens' pls pls' Hp (e & r & e' & r' & -> & -> & D & P & P' & S) H H'.
  destruct (round_runs _ _ _ _ _ _ _ H P) as (plays & n & s & R & -> & -> & _). destruct (round_runs _ _ _ _ _ _ _ H' P') as (plays' & n' & s' & R' & -> & -> & _).
  assert (E : exists q, p = Z.of_nat q /\ (q < 4)%nat) by (exists (Z.to_nat p); lia). destruct E as (q & -> & Hq).
  destruct (runs_like _ _ q _ _ _ _ _ _ _ _ _ _ Hq R R' D S) as (_ & [A F T _]). split; [exact T|].
  eapply Forall2_impl; [|exact (half_views _ _ _ F)]. intros h h' V.
  pose proof (fun a => public_like a _ _ _ _ _ Hq A V) as Q. destruct (Q TF) as (Q1 & Q2 & Q3 & Q4 & _).
  do 4 (split; [assumption|]). intros a. apply Q.
Qed.
Print Assumptions C109_public_partial.

(** The same round with two other tiles in the hand of player 0: one dealt, one drawn. *)
Definition other_round : list event :=
  match small_round with
  | e0 :: e1 :: e2 :: e3 :: _ :: r =>
      MkEvent "INIT" [("seed","0,0,1,2,3,132"); ("ten","250,240,250,250"); ("oya","0"); ("hai0","0,1,2,16,20,24,36,40,44,110,128,116,120"); ("hai1","108,109,37,41,45,49,53,57,61,65,69,73,77"); ("hai2","72,76,80,84,88,92,96,100,104,4,8,12,113"); ("hai3","5,9,13,17,21,25,29,33,38,42,46,50,54")]%string
      :: e1 :: e2 :: e3 :: MkEvent "T129" [] :: r
  | l => l
  end.
Definition plays_between (evs : list event) : list play :=
  flat_map (fun e => match play_of e with Some x => [x] | None => [] end) (removelast (tl evs)).

Lemma other_looks p : p = 1 \/ p = 2 -> looks_same p small_round other_round (plays_between small_round) (plays_between other_round).
Proof.
  intros E. unfold looks_same. do 4 eexists. split; [reflexivity|]. split; [reflexivity|]. split; [|split; [|split]].
  - destruct E as [-> | ->]; repeat constructor.
  - do 2 eexists. exists [last small_round (MkEvent "" [])]. split; [|split; [|split]].
    + change small_round with (hd (MkEvent "" []) small_round :: removelast (tl small_round) ++ [last small_round (MkEvent "" [])]) at 1. reflexivity.
    + cbn [removelast tl small_round]. repeat (constructor; [intros [Q|Q]; discriminate Q|]). constructor.
    + constructor; [right; reflexivity|constructor].
    + vm_compute. reflexivity.
  - do 2 eexists. exists [last other_round (MkEvent "" [])]. split; [|split; [|split]].
    + change other_round with (hd (MkEvent "" []) other_round :: removelast (tl other_round) ++ [last other_round (MkEvent "" [])]) at 1. reflexivity.
    + cbn [removelast tl other_round small_round]. repeat (constructor; [intros [Q|Q]; discriminate Q|]). constructor.
    + constructor; [right; reflexivity|constructor].
    + vm_compute. reflexivity.
  - destruct E as [-> | ->]; vm_compute; reflexivity.
Qed.

(** Both rounds are accepted; player 2 has samples of both kinds. *)
Example C109_example : looks_same 2 small_round other_round (plays_between small_round) (plays_between other_round) /\ consistent (plays_between small_round) /\
  option_map (fun x => match x with (_, _, t) => (List.length (filter (fun r => r_player r =? 2) (t_during t)), List.length (filter (fun r => r_player r =? 2) (t_discard t))) end)
    (sample_round ex_libs ORDERED other_round) = Some (1%nat, 2%nat) /\ small_round <> other_round.
Proof.
  split; [apply other_looks; auto|]. split; [vm_compute; repeat split; discriminate|]. split; [vm_compute; reflexivity|discriminate].
Qed.

(** Player 1 cannot tell the two rounds apart, but the sample for the reaction to the first
    discard shows the hand of player 0, in which they differ. *)
Theorem C109_refuted : exists L go p evs evs' half half' tokens tokens' pls pls' a t t' r r', 0 <= p < 4 /\
  looks_same p evs evs' pls pls' /\ orderly pls /\ orderly pls' /\
  process_round L go evs = Ok (half, tokens) /\ process_round L go evs' = Ok (half', tokens') /\
  build_tensors a half tokens = Ok t /\ build_tensors a half' tokens' = Ok t' /\
  hd_error (filter (fun r => r_player r =? p) (t_post t)) = Some r /\ hd_error (filter (fun r => r_player r =? p) (t_post t')) = Some r' /\
  r_tokens r = r_tokens r' /\ r_mask r = r_mask r' /\ r_label r = r_label r' /\ r_state r <> r_state r'.
Proof.
  pose (eqz := list_eq_dec Z.eq_dec).
  assert (K : match sample_round ex_libs ORDERED small_round, sample_round ex_libs ORDERED other_round with
    | Some (_, _, t), Some (_, _, t') =>
        match hd_error (filter (fun r => r_player r =? 1) (t_post t)), hd_error (filter (fun r => r_player r =? 1) (t_post t')) with
        | Some r, Some r' => (if eqz (r_tokens r) (r_tokens r') then true else false) && (if eqz (r_mask r) (r_mask r') then true else false) &&
            (r_label r =? r_label r') && negb (if eqz (hd [] (decode (f_x1 (r_state r)))) (hd [] (decode (f_x1 (r_state r')))) then true else false)
        | _, _ => false
        end
    | _, _ => false
    end = true) by (vm_compute; reflexivity).
  unfold sample_round in K.
  destruct (process_round ex_libs 169 small_round) as [[h tk]|] eqn:E1; [|discriminate K]. destruct (build_tensors ORDERED h tk) as [t|] eqn:B1; [|discriminate K].
  destruct (process_round ex_libs 169 other_round) as [[h' tk']|] eqn:E2; [|discriminate K]. destruct (build_tensors ORDERED h' tk') as [t'|] eqn:B2; [|discriminate K].
  destruct (hd_error (filter (fun r => r_player r =? 1) (t_post t))) as [r|] eqn:R1; [|discriminate K].
  destruct (hd_error (filter (fun r => r_player r =? 1) (t_post t'))) as [r'|] eqn:R2; [|discriminate K].
  apply andb_prop in K as [K K4]. apply andb_prop in K as [K K3]. apply andb_prop in K as [K1 K2].
  exists ex_libs, 169, 1, small_round, other_round, h, h', tk, tk', (plays_between small_round), (plays_between other_round), ORDERED, t, t', r, r'.
  split; [lia|]. split; [apply other_looks; auto|]. split; [show_orderly|]. split; [show_orderly|].
  do 6 (split; [assumption|]).
  destruct (eqz (r_tokens r) (r_tokens r')) as [Q1|]; [|discriminate K1]. destruct (eqz (r_mask r) (r_mask r')) as [Q2|]; [|discriminate K2]. apply Z.eqb_eq in K3.
  do 3 (split; [assumption|]). intros Q. rewrite Q in K4. destruct (eqz _ _) as [|N] in K4; [discriminate K4|]. now apply N.
Qed.
Print Assumptions C109_refuted.
