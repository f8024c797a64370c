(** C122: forced discards.  Vocabulary in SpecRound.v and SpecTensor.v. *)
From Coq Require Import ZArith List Bool String Lia Permutation.
From Verif Require Import Base Constants Naki Decision GameInfo Agari Process Tokens Tensor SpecMeld SpecTokens SpecRound SpecTurn SpecTensor
  NakiLemmas VecLemmas RoundLemmas RoundExamples RoundFacts TensorLemmas TensorRound TurnFacts PropsRound PropsTurn PropsTensor.
Import ListNotations.
Open Scope Z_scope.

(** The discards of a round, with the player; and those of players whose riichi has been
    accepted, who have to discard the tile they have drawn. *)
Definition all_discards (pls : list play) : list (Z * Z) := flat_map (fun x => match x with PlDiscard w t => [(w, t)] | _ => [] end) pls.
Fixpoint forced_discards (riichi : list Z) (pls : list play) : list (Z * Z) :=
  match pls with
  | [] => []
  | PlReach2 w :: r => forced_discards (w :: riichi) r
  | PlDiscard w t :: r => (if existsb (Z.eqb w) riichi then [(w, t)] else []) ++ forced_discards riichi r
  | _ :: r => forced_discards riichi r
  end.

(** Every discard becomes a sample, in the order of the log, of the player who makes it
    and with the type of the tile as its label, whether or not there is a choice. *)
Theorem C122_every_discard_partial : forall L go evs half tokens a t pls, process_round L go evs = Ok (half, tokens) -> plays_of_round evs pls ->
  build_tensors a half tokens = Ok t ->
  map (fun r => (r_player r, r_label r)) (t_discard t) = map (fun wt => (fst wt, tid (snd wt) / 4)) (all_discards pls).
Proof.
  intros L go evs half tokens a t pls H P B. destruct evs as [|e0 rest]; [destruct P as (? & ? & ? & E & _); discriminate E|].
  pose (g := fun h => match h with HDiscard w tl _ => [(w, tl)] | _ => [] end).
  assert (S : flat_map g (map shape_of half) = all_discards pls).
  { destruct (round_runs _ _ _ _ _ _ _ H P) as (plays & n & s & R & Eh & _). rewrite Eh, map_map.
    rewrite (map_ext (fun x => shape_of (map_half (observe s) x)) shape_of) by (now intros []). rewrite (C30_indices _ _ _ _ _ _ _ R). clear. generalize 0.
    induction pls as [|x pls IH]; intros z; [reflexivity|]. destruct x as [w c|w tl|w c|w|w|h]; cbn [shapes flat_map all_discards g app]; try apply IH.
    - f_equal. apply IH.
    - destruct (is_kakan c); cbn [flat_map g app]; apply IH. }
  assert (E : map (fun h => (half_player h, tile_of h)) (discards half) = all_discards pls).
  { rewrite <- S. clear. induction half as [|h half IH]; [reflexivity|]. cbn [map flat_map]. rewrite <- IH. now destruct h. }
  destruct (formed_rounds _ _ _ _ _ H) as [W I]. destruct (build_ok _ _ _ _ B W I) as (_ & D & _).
  rewrite <- E, map_map. clear - D.
  induction D as [|h r l l' (p & v & tl & i & Ehh & _ & _ & _ & Ep & Em & ti & Et & El) _ IH]; [reflexivity|]. cbn [map]. rewrite IH. f_equal.
  rewrite El, Ep, Ehh. cbn [tile_of half_player fst snd]. f_equal. apply tile2idx_ok in Et. subst ti. rewrite (proj1 (RoundTiles.tix_hd tl)). pose proof (RoundTiles.tid_range tl). rewrite Z2Nat.id; [reflexivity|apply Z.div_pos; lia].
Qed.
Print Assumptions C122_every_discard_partial.

(** So the discard of a player in riichi becomes a sample, for all four networks. *)
Theorem C122_refuted : forall a, exists L go evs half tokens t pls, process_round L go evs = Ok (half, tokens) /\ plays_of_round evs pls /\
  build_tensors a half tokens = Ok t /\ forced_discards [] pls = [(2, 118)] /\ exists r, In r (t_discard t) /\ r_player r = 2 /\ r_label r = 29.
Proof.
  intros a.
  assert (K : match process_round ex_libs 169 small_round with Ok (h, tk) => is_ok (build_tensors a h tk) | Err _ => false end = true) by (destruct a; vm_compute; reflexivity).
  destruct (process_round ex_libs 169 small_round) as [[h tk]|] eqn:E1; [|discriminate K]. destruct (build_tensors a h tk) as [t|] eqn:B1; [|discriminate K].
  pose (pls := flat_map (fun e => match play_of e with Some x => [x] | None => [] end) (removelast (tl small_round))).
  assert (P : plays_of_round small_round pls).
  { exists (hd (MkEvent "" []) small_round), (removelast (tl small_round)), [last small_round (MkEvent "" [])]. split; [vm_compute; reflexivity|]. split; [|split; [|vm_compute; reflexivity]].
    - apply Forall_forall. intros e J. assert (X : forallb (fun e => negb (String.eqb (e_tag e) "AGARI" || String.eqb (e_tag e) "RYUUKYOKU")) (removelast (tl small_round)) = true) by (vm_compute; reflexivity).
      rewrite forallb_forall in X. specialize (X e J). intros [Y|Y]; rewrite Y in X; discriminate X.
    - apply Forall_cons; [now right|apply Forall_nil]. }
  exists ex_libs, 169, small_round, h, tk, t, pls. split; [exact E1|]. split; [exact P|]. split; [exact B1|]. split; [vm_compute; reflexivity|].
  pose proof (C122_every_discard_partial _ _ _ _ _ _ _ _ E1 P B1) as M.
  assert (J : In (2, 29) (map (fun wt => (fst wt, tid (snd wt) / 4)) (all_discards pls))) by (vm_compute; tauto).
  rewrite <- M in J. apply in_map_iff in J as (r & J & Jr). exists r. split; [exact Jr|]. apply pair_equal_spec in J as [J1 J2]. split; [exact J1|exact J2].
Qed.
Print Assumptions C122_refuted.
