(** C115: what a sample tells about the dora indicator. *)
From Coq Require Import ZArith List Bool String Lia PeanoNat.
From Verif Require Import Base Constants Naki Decision Tokens GameInfo Agari Process SpecMeld SpecTokens SpecRound SpecTurn SpecTensor Tensor
  RoundExamples RoundLemmas RoundFacts TensorLemmas TensorRound PropsRound PropsTensor SpecDora.
Import ListNotations.
Open Scope Z_scope.

(** C115, what is proved: with the same plays the tokens are the same whatever the first
    indicator is, and it changes nothing but its own type in the counts of unseen tiles, by one. *)
Theorem C115_counts_partial : forall L go e e' r r' half half' tokens tokens' pls,
  plays_of_round (e :: r) pls -> plays_of_round (e' :: r') pls -> (forall p, (p < 4)%nat -> dealt e' p = dealt e p) ->
  process_round L go (e :: r) = Ok (half, tokens) -> process_round L go (e' :: r') = Ok (half', tokens') ->
  tokens = tokens' /\
  forall h h' p k, In h half -> In h' half' -> so_player (sv_obj (state_of h)) = p -> so_player (sv_obj (state_of h')) = p -> (p < 4)%nat -> (k < 34)%nat ->
    vget (sv_pov (state_of h)) k + num k [first_indicator e] = vget (sv_pov (state_of h')) k + num k [first_indicator e'].
Proof.
  intros L go e e' r r' half half' tokens tokens' pls P P' D H H'.
  destruct (round_runs _ _ _ _ _ _ _ H P) as (plays & n & s & R & -> & -> & _). destruct (round_runs _ _ _ _ _ _ _ H' P') as (plays' & n' & s' & R' & -> & -> & _).
  split.
  - pose proof (C29_tokens _ _ _ _ _ _ _ R) as T. pose proof (C29_tokens _ _ _ _ _ _ _ R') as T'. clear - T T'.
    revert T'. generalize (s_tokens s') as l'. induction T as [|x y l1 l2 E _ IH]; intros l' T'; inversion T' as [|? y' ? l3 E' T1]; subst; [reflexivity|].
    rewrite E in E'. apply Ok_inj in E'. subst y'. f_equal. now apply IH.
  - intros h h' p k I I' E E' Hp Hk. apply in_map_iff in I as (x & <- & _). apply in_map_iff in I' as (x' & <- & _).
    assert (S : forall (s0 : rstate) y, sv_pov (state_of (map_half (observe s0) y)) = row (s_pov s0) (so_player (sv_obj (state_of (map_half (observe s0) y))))) by (intros s0 []; reflexivity).
    rewrite !S, E, E'. 
    pose proof (C25_view _ _ _ _ _ _ _ (Z.of_nat p) k R ltac:(lia) Hk) as V. pose proof (C25_view _ _ _ _ _ _ _ (Z.of_nat p) k R' ltac:(lia) Hk) as V'.
    unfold vec in V, V'. rewrite Nat2Z.id in V, V'. rewrite V, V', (D p Hp). rewrite (RoundTiles.num_cons k (first_indicator e)), (RoundTiles.num_cons k (first_indicator e')). lia.
Qed.
Print Assumptions C115_counts_partial.

(** The indicator is White, and at the end player 2 draws and discards a Red; or the other way round. *)
Definition dora_deal (i : string) : event :=
  MkEvent "INIT" [("seed", "0,0,0,2,3," ++ i); ("ten","250,250,250,250"); ("oya","0"); ("hai0","34,36,40,44,48,53,56,60,64,68,73,76,80"); ("hai1","32,33,8,108,112,116,120,37,41,45,49,65,69");
    ("hai2","109,113,117,121,125,38,42,46,50,54,57,61,72"); ("hai3","110,114,118,122,126,39,43,47,51,55,58,62,77")]%string.
Definition dora_rest (v f : string) : list event :=
  [MkEvent "T0" []; MkEvent "D0" []; MkEvent "U1" []; MkEvent "E1" []; MkEvent v []; MkEvent f []; MkEvent "RYUUKYOKU" [("sc","0,0,0,0")]]%string.
Definition dora_white : list event := dora_deal "128" :: dora_rest "V132" "F132".
Definition dora_red : list event := dora_deal "132" :: dora_rest "V128" "F128".

Definition eqz := list_eq_dec Z.eq_dec.
Definition eqm := list_eq_dec eqz.
Definition eqt := list_eq_dec eqm.
Definition inputs_equal (r r' : sample) : bool :=
  (if eqz (r_tokens r) (r_tokens r') then true else false) && (if eqt (f_x1 (r_state r)) (f_x1 (r_state r')) then true else false) && (if eqm (f_x2 (r_state r)) (f_x2 (r_state r')) then true else false) &&
  (if eqz (f_x3 (r_state r)) (f_x3 (r_state r')) then true else false) && (if eqz (r_mask r) (r_mask r') then true else false) && (r_player r =? r_player r').
Lemma inputs_equal_ok r r' : inputs_equal r r' = true -> same_input r r'.
Proof.
  unfold inputs_equal, same_input. destruct (eqz (r_tokens r) _); [|discriminate]. destruct (eqt _ _); [|discriminate]. destruct (eqm _ _); [|discriminate].
  destruct (eqz (f_x3 _) _); [|discriminate]. destruct (eqz (r_mask r) _); [|discriminate]. cbn [andb]. intros E. apply Z.eqb_eq in E.
  repeat split; try assumption. destruct (r_state r), (r_state r'). cbn in *. congruence.
Qed.
Definition heads_equal (l l' : list sample) : bool := match l, l' with r :: _, r' :: _ => inputs_equal r r' | _, _ => false end.
Lemma heads_equal_ok l l' : heads_equal l l' = true -> exists r r', hd_error l = Some r /\ hd_error l' = Some r' /\ same_input r r'.
Proof. destruct l as [|r l], l' as [|r' l']; try discriminate. intros E. exists r, r'. repeat split; now apply inputs_equal_ok. Qed.

Definition heads_same (t t' : tensors) : bool := heads_equal (t_during t) (t_during t') && heads_equal (t_discard t) (t_discard t').
Lemma two_rounds L a evs evs' (chk : tensors -> tensors -> bool) :
  match sample_round L a evs, sample_round L a evs' with Some (_, _, t), Some (_, _, t') => chk t t' | _, _ => false end = true ->
  exists h tk t h' tk' t', process_round L 169 evs = Ok (h, tk) /\ build_tensors a h tk = Ok t /\ process_round L 169 evs' = Ok (h', tk') /\ build_tensors a h' tk' = Ok t' /\ chk t t' = true.
Proof.
  unfold sample_round. destruct (process_round L 169 evs) as [[h tk]|]; [|discriminate]. destruct (build_tensors a h tk) as [t|] eqn:B; [|discriminate].
  destruct (process_round L 169 evs') as [[h' tk']|]; [|discriminate]. destruct (build_tensors a h' tk') as [t'|] eqn:B'; [|discriminate].
  intros K. exists h, tk, t, h', tk', t'. auto.
Qed.

Lemma dora_differs : other_dora (hd (MkEvent "" []) dora_white) (hd (MkEvent "" []) dora_red).
Proof. unfold other_dora. replace (first_indicator _) with 128 by (vm_compute; reflexivity). replace (first_indicator _) with 132 by (vm_compute; reflexivity). discriminate. Qed.
Lemma dora_dealt p : (p < 4)%nat -> dealt (hd (MkEvent "" []) dora_red) p = dealt (hd (MkEvent "" []) dora_white) p.
Proof. intros Hp. do 4 (destruct p as [|p]; [vm_compute; reflexivity|]). lia. Qed.

(** Different tiles are dora in the two rounds, but the network is given the same input for the
    first own turn of the dealer and for the first discard. *)
Theorem C115_refuted : forall a, exists L go e e' r r' half half' tokens tokens' t t' s1 s1' s2 s2',
  other_dora e e' /\ (forall p, (p < 4)%nat -> dealt e' p = dealt e p) /\
  process_round L go (e :: r) = Ok (half, tokens) /\ process_round L go (e' :: r') = Ok (half', tokens') /\
  build_tensors a half tokens = Ok t /\ build_tensors a half' tokens' = Ok t' /\
  hd_error (t_during t) = Some s1 /\ hd_error (t_during t') = Some s1' /\ same_input s1 s1' /\
  hd_error (t_discard t) = Some s2 /\ hd_error (t_discard t') = Some s2' /\ same_input s2 s2'.
Proof.
  intros a.
  assert (K : match sample_round ex_libs a dora_white, sample_round ex_libs a dora_red with
    | Some (_, _, t), Some (_, _, t') => heads_same t t' | _, _ => false end = true) by (destruct a; vm_compute; reflexivity).
  destruct (two_rounds ex_libs a dora_white dora_red heads_same K) as (h & tk & t & h' & tk' & t' & E1 & B1 & E2 & B2 & K0). clear K. rename K0 into K.
  apply andb_prop in K as [K1 K2]. destruct (heads_equal_ok _ _ K1) as (s1 & s1' & Q1 & Q2 & Q3). destruct (heads_equal_ok _ _ K2) as (s2 & s2' & Q4 & Q5 & Q6).
  exists ex_libs, 169, (hd (MkEvent "" []) dora_white), (hd (MkEvent "" []) dora_red), (tl dora_white), (tl dora_red), h, h', tk, tk', t, t', s1, s1', s2, s2'.
  split; [exact dora_differs|]. split; [exact dora_dealt|]. do 4 (split; [assumption|]). auto 7.
Qed.
Print Assumptions C115_refuted.

(** The theorem above is not empty: the same round with the two indicators. *)
Definition unseen_first (k : nat) (r : res (list (halfturn sview) * list Z)) : Z :=
  match r with Ok (h :: _, _) => nth k (sv_pov (state_of h)) 0 | _ => -1 end.
Example C115_example : unseen_first 32 (process_round ex_libs 169 (dora_deal "128" :: dora_rest "V133" "F133")) = 3 /\
  unseen_first 32 (process_round ex_libs 169 (dora_deal "132" :: dora_rest "V133" "F133")) = 4.
Proof. split; vm_compute; reflexivity. Qed.
