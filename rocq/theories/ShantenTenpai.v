(** Hands that are one tile short of complete are found by the search. *)
From Coq Require Import ZArith List Bool Lia Arith Permutation.
From Verif Require Import Base Constants VecLemmas Shanten SpecShanten SpecDistance ShantenSearch ShantenLemmas ShantenWins ShantenDistance ShantenReady.
Import ListNotations.
Open Scope Z_scope.

Definition suited (m : mset) : bool := match m with Triplet i => Nat.ltb i 27 | Run _ => true end.
Definition suited_piece (q : piece) : piece := match q with One i => if Nat.ltb i 27 then One i else Nothing | _ => q end.
Definition piece_34 (q : piece) : Prop := match q with One i => (i < 34)%nat | _ => piece_ok q end.
Definition pairs_for (q : piece) : nat := match q with Nothing => 2%nat | One _ => 0%nat | _ => 1%nat end.
(** The tiles of the left-over, and how many of them are suited *)
Definition size (q : piece) : Z := match q with Nothing => 0 | One _ => 1 | _ => 2 end.

Lemma two_filter ps t : (t < 27)%nat -> two ps t = two (filter (fun p => Nat.ltb p 27) ps) t.
Proof.
  intros T. induction ps as [|p ps IH]; [reflexivity|]. cbn [filter]. rewrite two_cons, IH. destruct (Nat.ltb_spec p 27); [now rewrite two_cons|].
  rewrite (proj2 (Nat.eqb_neq t p)) by lia. lia.
Qed.
Lemma S27_piece q : piece_ok q -> S27 (piece_uses q) = size q.
Proof.
  destruct q as [|i|i|i]; cbn [piece_ok piece_uses size]; intros H.
  - reflexivity.
  - rewrite (S27_ext _ (fun t => if Nat.eqb t i then 1 else 0)) by reflexivity. now apply S27_at.
  - pose proof (run_fits i (proj1 H) (proj2 H)). rewrite (S27_ext _ (fun t => (if Nat.eqb t i then 1 else 0) + (if Nat.eqb t (i + 2) then 1 else 0))) by reflexivity. rewrite S27_add, !S27_at by lia. reflexivity.
  - pose proof (side_fits i (proj1 H) (proj2 H)). rewrite (S27_ext _ (fun t => (if Nat.eqb t i then 1 else 0) + (if Nat.eqb t (i + 1) then 1 else 0))) by reflexivity. rewrite S27_add, !S27_at by lia. reflexivity.
Qed.
Lemma piece_27 q t : piece_ok q -> (27 <= t)%nat -> piece_uses q t = 0.
Proof.
  destruct q as [|i|i|i]; cbn [piece_ok piece_uses]; unfold at_tile; intros H T; [reflexivity| | |].
  - now rewrite (proj2 (Nat.eqb_neq t i)) by lia.
  - pose proof (run_fits i (proj1 H) (proj2 H)). now rewrite !(proj2 (Nat.eqb_neq t _)) by lia.
  - pose proof (side_fits i (proj1 H) (proj2 H)). now rewrite !(proj2 (Nat.eqb_neq t _)) by lia.
Qed.

Lemma ready_found h m sets pairs q : plain_hand h -> (m <= 4)%nat -> total h = 13 - 3 * Z.of_nat m ->
  Forall legal sets -> Forall (fun p => (p < 34)%nat) pairs -> NoDup pairs -> piece_34 q -> length pairs = pairs_for q ->
  (forall t, (t < 34)%nat -> nth t h 0 = uses_all sets t + two pairs t + piece_uses q t) ->
  exists s', Reach 0 (sv_init h) s' /\ leaf_value s' <= 0.
Proof.
  intros P M4 T Lg Fp ND Pq Ln E. pose proof P as (L & B & Rd).
  destruct (sets_total13 h m P (or_intror T)) as [IM IP].
  set (l := filter suited sets). set (ps := filter (fun p => Nat.ltb p 27) pairs). set (q' := suited_piece q).
  assert (Q' : piece_ok q') by (unfold q'; destruct q as [|i|i|i]; cbn [suited_piece]; try exact Pq; destruct (Nat.ltb_spec i 27); [assumption|exact I]).
  assert (Lps : (length ps <= length pairs)%nat) by (unfold ps; clear; induction pairs as [|x r IH]; [reflexivity|]; cbn [filter]; destruct (Nat.ltb x 27); cbn [length]; lia).
  assert (X : Conf (from 0 (sv_hand (sv_init h))) l ps q').
  { split; [|split; [|split; [exact Q'|split]]].
    - apply Forall_forall. intros x X. apply filter_In in X. destruct X as [X F].
      pose proof (proj1 (Forall_forall _ _) Lg x X) as Q. destruct x as [i|i]; cbn [legal legal27 suited] in *; [now apply Nat.ltb_lt|exact Q].
    - apply Forall_forall. intros x X. apply filter_In in X. now apply Nat.ltb_lt.
    - unfold q'. destruct q as [|i|i|i]; cbn [suited_piece pairs_for] in *.
      + cbn. now apply NoDup_filter.
      + assert (pairs = []) as -> by (destruct pairs; [reflexivity|discriminate Ln]). destruct (Nat.ltb i 27); cbn; [reflexivity|constructor].
      + cbn. lia.
      + cbn. lia.
    - intros t I. unfold from. rewrite (proj2 (Nat.ltb_ge t 0)) by lia. cbn [sv_init sv_hand]. unfold vget. rewrite E by lia.
      rewrite (uses_split sets t I Lg). change (filter _ sets) with l. rewrite (two_filter pairs t I). fold ps. f_equal.
      unfold q'. destruct q as [|i|i|i]; try reflexivity. cbn [suited_piece]. destruct (Nat.ltb_spec i 27); [reflexivity|]. cbn [piece_uses]. unfold at_tile. now rewrite (proj2 (Nat.eqb_neq t i)) by lia. }
  (* honours *)
  set (one := match q with One i => if Nat.ltb i 27 then 0 else 1 | _ => 0 end).
  set (g := fun t => vget h t - match q with One i => if Nat.ltb i 27 then 0 else at_tile i t | _ => 0 end).
  assert (G : forall t, In t (seq 27 7) -> exists k, 0 <= k /\ g t = 3 * k + two pairs t).
  { intros t J. apply in_seq in J. destruct (uses_hon_3 sets t ltac:(lia) Lg) as (k & K & EQ). exists k. split; [exact K|]. unfold g, vget. rewrite E, EQ by lia.
    destruct q as [|i|i|i]; cbn [piece_uses piece_34] in *.
    - lia.
    - destruct (Nat.ltb_spec i 27); [|lia]. unfold at_tile. rewrite (proj2 (Nat.eqb_neq t i)) by lia. lia.
    - pose proof (piece_27 (Gap i) t Pq ltac:(lia)) as W. cbn [piece_uses] in W. lia.
    - pose proof (piece_27 (Side i) t Pq ltac:(lia)) as W. cbn [piece_uses] in W. lia. }
  assert (TP : forall t, two pairs t = 0 \/ two pairs t = 2) by (intros t; rewrite (two_nodup _ _ ND); destruct (existsb (Nat.eqb t) pairs); auto).
  assert (NP : one = 1 -> pairs = []).
  { unfold one. destruct q; try discriminate. cbn [pairs_for] in Ln. intros _. now destruct pairs. }
  assert (D : forall t, In t (seq 27 7) -> vget h t = g t \/ one = 1 /\ vget h t = g t + 1).
  { intros t _. unfold g, one. destruct q as [|i|i|i]; try (left; lia). destruct (Nat.ltb i 27); [left; lia|]. unfold at_tile. destruct (Nat.eqb t i); [right; split; [reflexivity|lia]|left; lia]. }
  assert (H7 : forall t, In t (seq 27 7) -> g t = 0 \/ g t = 2 \/ g t = 3).
  { intros t J. destruct (G t J) as (k & K & EQ). pose proof (TP t) as TPt. apply in_seq in J as J'. pose proof (B t ltac:(lia)) as Bt. fold (vget h t) in Bt.
    destruct (D t J) as [W|[_ W]]; rewrite W in Bt; lia. }
  assert (EqT : filter (fun t => 3 <=? g t) (seq 27 7) = honT h).
  { unfold honT. apply filter_ext_in. intros t J. destruct (D t J) as [->|[O ->]]; [reflexivity|]. destruct (G t J) as (k & K & EQ). rewrite (NP O) in EQ. change (two [] t) with 0 in EQ.
    destruct (Z.leb_spec 3 (g t)), (Z.leb_spec 3 (g t + 1)); try reflexivity; lia. }
  assert (EqP : filter (fun t => g t =? 2) (seq 27 7) = honP h).
  { unfold honP. apply filter_ext_in. intros t J. destruct (D t J) as [->|[O ->]]; [reflexivity|]. destruct (G t J) as (k & K & EQ). rewrite (NP O) in EQ. change (two [] t) with 0 in EQ.
    destruct (Z.eqb_spec (g t) 2), (Z.eqb_spec (g t + 1) 2); try reflexivity; lia. }
  pose proof (S7_exact _ _ H7) as E7. rewrite EqT, EqP in E7.
  assert (S7h : S7 (vget h) = vsum (map g (seq 27 7)) + one).
  { unfold S7, g, one. destruct q as [|i|i|i]; try (rewrite Z.add_0_r; f_equal; apply map_ext; intros t; lia).
    cbn [piece_34] in Pq. destruct (Nat.ltb_spec i 27); [rewrite Z.add_0_r; f_equal; apply map_ext; intros t; lia|].
    assert (i = 27 \/ i = 28 \/ i = 29 \/ i = 30 \/ i = 31 \/ i = 32 \/ i = 33)%nat as W by lia.
    repeat (destruct W as [->|W]; [cbn; lia|]). subst i. cbn. lia. }
  pose proof (total_split h P) as TS.
  assert (HS : S27 (vget h) = 3 * Z.of_nat (length l) + 2 * Z.of_nat (length ps) + size q').
  { destruct X as (X1 & X2 & X3 & _ & X4). rewrite (S27_ext _ (fun t => uses_all l t + two ps t + piece_uses q' t)).
    - rewrite !S27_add, S27_uses_all, S27_two, S27_piece by assumption. reflexivity.
    - intros t J. rewrite <- X4 by exact J. reflexivity. }
  assert (HP : (length (honP h) + length ps <= length pairs)%nat).
  { assert (Q : incl (honP h ++ ps) pairs).
    { intros t J. apply in_app_or in J. destruct J as [J|J]; [|now apply filter_In in J].
      rewrite <- EqP in J. apply filter_In in J. destruct J as [J W]. apply Z.eqb_eq in W. destruct (G t J) as (k & K & EQ).
      assert (V : two pairs t <> 0) by (pose proof (TP t); lia). rewrite (two_nodup _ _ ND) in V. destruct (existsb (Nat.eqb t) pairs) eqn:Ex; [|contradiction].
      apply existsb_exists in Ex. destruct Ex as (y & Y & Ey). apply Nat.eqb_eq in Ey. now subst y. }
    rewrite <- app_length. apply NoDup_incl_length; [|exact Q].
    assert (AppND : forall a b : list nat, NoDup a -> NoDup b -> (forall x, In x a -> ~ In x b) -> NoDup (a ++ b)).
    { clear. induction 1 as [|x a Nx _ IH]; intros Nb H; [exact Nb|]. cbn [app]. constructor; [|apply IH; [exact Nb|intros y Y; apply H; now right]].
      intros J. apply in_app_or in J. destruct J as [J|J]; [now apply Nx|]. apply (H x); [now left|exact J]. }
    apply AppND; [apply NoDup_filter, seq_NoDup|now apply NoDup_filter|]. intros x J K. apply filter_in_range in J. apply filter_In in K. destruct K as [_ K]. apply Nat.ltb_lt in K. lia. }
  destruct (ShantenReady.complete 140 0 (sv_init h) l ps q') as (s' & a & b & c & R & A1 & A2 & A3 & A4 & A5).
  - apply mu_bound.
  - exact L.
  - lia.
  - intros t J. cbn [sv_init sv_hand]. unfold vget. specialize (B t ltac:(lia)). lia.
  - exact X.
  - exists s'. split; [exact R|]. rewrite IM in A1. rewrite IP in A2. change (sv_taatsu (sv_init h)) with 0 in A3. change (sv_tune (sv_init h)) with 0 in A4.
    unfold leaf_value. rewrite A4. cbn [truthy Z.eqb negb andb]. rewrite A1, A2, A3.
    clear - A5 HP HS TS E7 S7h T Ln M4. unfold ends in A5. subst q' one. destruct q as [|i|i|i]; cbn [suited_piece size pairs_for] in *; try (destruct (Nat.ltb i 27); cbn [size] in *); lia.
Qed.
