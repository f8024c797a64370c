(** From the search to complete hands: honours, totals and the three kinds of wins. *)
From Coq Require Import ZArith List Bool Lia Arith Permutation.
From Verif Require Import Base Constants VecLemmas Shanten SpecShanten ShantenSearch ShantenLemmas.
Import ListNotations.
Open Scope Z_scope.

(** Sum over the honour types *)
Definition S7 (f : nat -> Z) : Z := vsum (map f (seq 27 7)).

Lemma total_split h : plain_hand h -> total h = S27 (vget h) + S7 (vget h).
Proof.
  intros (L & _ & R). unfold total. change (fold_right Z.add 0 h) with (vsum h).
  rewrite (vsum_index h), L. change (seq 0 37) with (seq 0 27 ++ seq 27 7 ++ [34; 35; 36]%nat).
  rewrite !map_app, !vsum_app. cbn [map vsum fold_right]. fold (vsum (map (vget h) (seq 0 27))).
  fold (vsum (map (vget h) (seq 27 7))). unfold vget at 3 4 5. rewrite !R by lia. unfold S27, S7. lia.
Qed.

Lemma vget_skipn n v k : vget (skipn n v) k = vget v (n + k).
Proof. unfold vget. revert v; induction n as [|n IH]; intros v; [reflexivity|]. destruct v; [cbn; destruct k; reflexivity|]. apply IH. Qed.

Lemma skip27 h : length h = 37%nat -> skipn 27 h = map (vget h) (seq 27 7) ++ [vget h 34; vget h 35; vget h 36].
Proof.
  intros L. apply list_eq_vget; [rewrite skipn_length, app_length, map_length, seq_length, L; reflexivity|].
  intros k K. rewrite skipn_length, L in K. rewrite vget_skipn.
  do 10 (destruct k as [|k]; [reflexivity|]). lia.
Qed.

Definition honT (h : list Z) : list nat := filter (fun t => 3 <=? vget h t) (seq 27 7).
Definition honP (h : list Z) : list nat := filter (fun t => vget h t =? 2) (seq 27 7).

Lemma sum_b2z (p : nat -> bool) l : vsum (map (fun t => b2z (p t)) l) = Z.of_nat (length (filter p l)).
Proof. induction l as [|x l IH]; [reflexivity|]. cbn [map vsum fold_right filter]. fold (vsum (map (fun t => b2z (p t)) l)). rewrite IH. destruct (p x); cbn [b2z length]; lia. Qed.

Lemma sum_ge_hon h : plain_hand h -> sum_ge (skipn 27 h) 3 = Z.of_nat (length (honT h)).
Proof.
  intros (L & _ & R). rewrite skip27 by exact L. unfold sum_ge. rewrite map_app, map_map, vsum_app.
  rewrite sum_b2z. unfold vget. rewrite !R by lia. cbn. unfold honT, vget. lia.
Qed.
Lemma sum_eq_hon h : plain_hand h -> sum_eq (skipn 27 h) 2 = Z.of_nat (length (honP h)).
Proof.
  intros (L & _ & R). rewrite skip27 by exact L. unfold sum_eq. rewrite map_app, map_map, vsum_app.
  rewrite sum_b2z. unfold vget. rewrite !R by lia. cbn. unfold honP, vget. lia.
Qed.

Lemma S7_ge l (f : nat -> Z) : (forall t, In t l -> 0 <= f t) ->
  3 * Z.of_nat (length (filter (fun t => 3 <=? f t) l)) + 2 * Z.of_nat (length (filter (fun t => f t =? 2) l)) <= vsum (map f l) /\
  (3 * Z.of_nat (length (filter (fun t => 3 <=? f t) l)) + 2 * Z.of_nat (length (filter (fun t => f t =? 2) l)) = vsum (map f l) ->
   forall t, In t l -> f t = 0 \/ f t = 2 \/ f t = 3).
Proof.
  induction l as [|x l IH]; intros N; [cbn; split; [lia|intros _ t []]|].
  destruct IH as [A B]; [intros t T; apply N; now right|]. pose proof (N x (or_introl eq_refl)) as X.
  cbn [filter map vsum fold_right]. fold (vsum (map f l)).
  destruct (Z.leb_spec 3 (f x)) as [Q|Q], (Z.eqb_spec (f x) 2) as [W|W]; cbn [length]; split; try lia;
    intros E t [<-|T]; try lia; apply B; (lia || assumption).
Qed.

Lemma S7_exact l (f : nat -> Z) : (forall t, In t l -> f t = 0 \/ f t = 2 \/ f t = 3) ->
  3 * Z.of_nat (length (filter (fun t => 3 <=? f t) l)) + 2 * Z.of_nat (length (filter (fun t => f t =? 2) l)) = vsum (map f l).
Proof.
  induction l as [|x l IH]; intros N; [reflexivity|].
  specialize (IH (fun t T => N t (or_intror T))). pose proof (N x (or_introl eq_refl)) as X.
  cbn [filter map vsum fold_right]. fold (vsum (map f l)).
  destruct (Z.leb_spec 3 (f x)) as [Q|Q], (Z.eqb_spec (f x) 2) as [W|W]; cbn [length]; lia.
Qed.

Lemma uses_app a b t : uses_all (a ++ b) t = uses_all a t + uses_all b t.
Proof. induction a as [|m a IH]; [reflexivity|]. cbn [app]. rewrite !uses_all_cons, IH. lia. Qed.

Lemma uses_triplets l t : NoDup l -> uses_all (map Triplet l) t = if existsb (Nat.eqb t) l then 3 else 0.
Proof.
  induction 1 as [|x l N _ IH]; [reflexivity|]. cbn [map existsb]. rewrite uses_all_cons, IH. cbn [uses].
  destruct (Nat.eqb_spec t x) as [->|]; cbn [orb]; [|lia].
  destruct (existsb (Nat.eqb x) l) eqn:E; [|lia].
  apply existsb_exists in E. destruct E as (y & Y & E). apply Nat.eqb_eq in E. subst y. contradiction.
Qed.

Lemma uses_27 l t : Forall legal27 l -> (27 <= t)%nat -> uses_all l t = 0.
Proof.
  induction 1 as [|m l M _ IH]; intros T; [reflexivity|]. rewrite uses_all_cons, IH by exact T.
  destruct m as [i|i]; cbn [legal27 uses] in *.
  - now rewrite (proj2 (Nat.eqb_neq t i)) by lia.
  - destruct M as [M1 M2]. pose proof (run_fits i M1 M2). rewrite (proj2 (Nat.leb_gt t (i + 2))) by lia. now rewrite andb_false_r.
Qed.

Lemma filter_in_range p t : In t (filter p (seq 27 7)) <-> (27 <= t < 34)%nat /\ p t = true.
Proof. rewrite filter_In, in_seq. split; intros [A B]; (split; [lia|exact B]). Qed.

Lemma existsb_hon h t : (t < 34)%nat -> existsb (Nat.eqb t) (honT h) = (Nat.leb 27 t && (3 <=? vget h t)).
Proof.
  intros T. apply eq_true_iff_eq. rewrite existsb_exists, andb_true_iff, Nat.leb_le. split.
  - intros (x & X & E). apply Nat.eqb_eq in E. subst x. apply filter_in_range in X. split; [lia|apply X].
  - intros [A B]. exists t. split; [|apply Nat.eqb_refl]. apply filter_in_range. split; [lia|exact B].
Qed.

Lemma sets_total h m : plain_hand h -> total h = 14 - 3 * Z.of_nat m ->
  sv_mentsu (sv_init h) = Z.of_nat m + Z.of_nat (length (honT h)) /\
  sv_toitsu (sv_init h) = Z.of_nat (length (honP h)).
Proof.
  intros P T. cbn [sv_init sv_mentsu sv_toitsu]. rewrite sum_ge_hon, sum_eq_hon by exact P.
  change (vsum h) with (total h). rewrite T. replace (14 - (14 - 3 * Z.of_nat m)) with (Z.of_nat m * 3) by lia.
  rewrite Z.div_mul by lia. auto.
Qed.

Lemma plain_nonneg h : plain_hand h -> nonneg (sv_init h).
Proof. intros (L & B & _) t T. cbn [sv_init sv_hand]. unfold vget. specialize (B t ltac:(lia)). lia. Qed.

(** Where a leaf can be: at most four sets, and -1 only for four sets and a pair. *)
Lemma leaf_low h m s' : plain_hand h -> total h = 14 - 3 * Z.of_nat m -> Reach 0 (sv_init h) s' ->
  -1 <= leaf_value s' /\ (leaf_value s' <= -1 -> standard_win h (4 - m)).
Proof.
  intros P T R. pose proof P as (L & B & Rd).
  destruct (sets_total h m P T) as [IM IP].
  destruct (reach_dec _ _ _ R L (plain_nonneg h P)) as (sets & pairs & rest & A1 & A2 & A3 & A4 & A5 & A6 & A7 & A8).
  rewrite IM in A5. rewrite IP in A6.
  change (sv_taatsu (sv_init h)) with 0 in A7, A8. change (sv_hand (sv_init h)) with h in A4.
  assert (HS : S27 (vget h) = 3 * Z.of_nat (length sets) + 2 * Z.of_nat (length pairs) + S27 rest).
  { rewrite (S27_ext _ _ A4), !S27_add, S27_uses_all, S27_two by assumption. reflexivity. }
  assert (N7 : forall t, In t (seq 27 7) -> 0 <= vget h t).
  { intros t I. apply in_seq in I. unfold vget. specialize (B t ltac:(lia)). lia. }
  destruct (S7_ge (seq 27 7) (vget h) N7) as [G1 G2].
  fold (honT h) in G1, G2. fold (honP h) in G1, G2. fold (S7 (vget h)) in G1, G2.
  pose proof (total_split h P) as TS. rewrite T, HS in TS.
  pose proof (S27_nonneg rest A3) as NR.
  set (a := Z.of_nat (length sets)) in *. set (b := Z.of_nat (length pairs)) in *.
  set (c := Z.of_nat (length (honT h))) in *. set (d := Z.of_nat (length (honP h))) in *.
  assert (0 <= a /\ 0 <= b /\ 0 <= c /\ 0 <= d) as (Pa & Pb & Pc & Pd) by (unfold a, b, c, d; lia).
  unfold leaf_value. set (u := if truthy (sv_tune s') && negb (truthy (sv_toitsu s')) then 1 else 0).
  assert (Pu : 0 <= u) by (unfold u; destruct (truthy (sv_tune s') && negb (truthy (sv_toitsu s'))); lia).
  clearbody u. split; [lia|]. intros V.
  assert (M4 : Z.of_nat m + c + a = 4) by lia.
  assert (P1 : d + b = 1) by lia.
  assert (T0 : S27 rest = 0) by lia.
  assert (E7 : S7 (vget h) = 3 * c + 2 * d) by lia.
  assert (R0 : forall t, (t < 27)%nat -> rest t = 0).
  { intros t I. assert (Q : S27 (fun t' => rest t' + - (if Nat.eqb t' t then rest t else 0)) = 0 - rest t).
    { rewrite S27_add, T0. rewrite (S27_ext (fun t' => - (if Nat.eqb t' t then rest t else 0)) (fun t' => if Nat.eqb t' t then - rest t else 0)).
      - rewrite S27_at by exact I. lia.
      - intros t' _. destruct (Nat.eqb t' t); lia. }
    assert (0 <= S27 (fun t' => rest t' + - (if Nat.eqb t' t then rest t else 0))).
    { apply S27_nonneg. intros t' I'. specialize (A3 t' I'). destruct (Nat.eqb_spec t' t) as [->|]; lia. }
    specialize (A3 t I). lia. }
  pose proof (G2 (eq_sym E7)) as G3.
  assert (exists p, (p < 34)%nat /\ forall t, (t < 34)%nat ->
    (if Nat.eqb t p then 2 else 0) = if Nat.ltb t 27 then two pairs t else if vget h t =? 2 then 2 else 0) as (p & Pp & Hp).
  { assert (b = 1 /\ d = 0 \/ b = 0 /\ d = 1) as [[E1 E2]|[E1 E2]] by lia.
    - destruct pairs as [|p [|? ?]]; try (subst b; cbn [length] in *; lia). exists p. pose proof (Forall_inv A2) as Q. cbv beta in Q. split; [lia|].
      intros t I. rewrite two_1. destruct (Nat.ltb_spec t 27) as [K|K]; [reflexivity|].
      rewrite (proj2 (Nat.eqb_neq t p)) by lia. destruct (Z.eqb_spec (vget h t) 2) as [W|W]; [exfalso|reflexivity].
      assert (In t (honP h)) by (apply filter_in_range; split; [lia|now apply Z.eqb_eq]).
      destruct (honP h); [contradiction|subst d; cbn [length] in *; lia].
    - assert (pairs = []) as -> by (destruct pairs; [reflexivity|subst b; cbn [length] in *; lia]).
      assert (exists p, honP h = [p]) as (p & Ep) by (destruct (honP h) as [|p [|? ?]]; try (subst d; cbn [length] in *; lia); now exists p).
      exists p. assert (Ip : In p (honP h)) by (rewrite Ep; now left). apply filter_in_range in Ip. destruct Ip as [I1 I2].
      split; [lia|]. intros t I. destruct (Nat.ltb_spec t 27) as [K|K].
      + rewrite (proj2 (Nat.eqb_neq t p)) by lia. reflexivity.
      + destruct (Nat.eqb_spec t p) as [->|NE]; [now rewrite I2|].
        destruct (Z.eqb_spec (vget h t) 2) as [W|W]; [exfalso|reflexivity].
        assert (In t (honP h)) by (apply filter_in_range; split; [lia|now apply Z.eqb_eq]).
        rewrite Ep in H. destruct H as [H|[]]. congruence. }
  exists (sets ++ map Triplet (honT h)), p. split; [|split; [|split; [exact Pp|]]].
  - rewrite app_length, map_length. unfold a, c in *. lia.
  - apply Forall_app. split.
    + eapply Forall_impl; [|exact A1]. intros [i|i] Q; cbn [legal27 legal] in *; [lia|exact Q].
    + apply Forall_forall. intros x X. apply in_map_iff in X. destruct X as (i & <- & X). apply filter_in_range in X. cbn. lia.
  - intros t I. rewrite uses_app, uses_triplets, existsb_hon by (exact I || apply NoDup_filter, seq_NoDup).
    rewrite Hp by exact I. fold (vget h t). destruct (Nat.ltb_spec t 27) as [K|K].
    + rewrite (proj2 (Nat.leb_gt 27 t)) by lia. cbn [andb]. rewrite A4, R0 by exact K. lia.
    + rewrite (proj2 (Nat.leb_le 27 t)), uses_27 by (assumption || lia). cbn [andb].
      destruct (G3 t) as [W|[W|W]]; [apply in_seq; lia| | |]; rewrite W; reflexivity.
Qed.

(** A complete hand is found. *)
Lemma uses_split l t : (t < 27)%nat -> Forall legal l ->
  uses_all l t = uses_all (filter (fun m => match m with Triplet i => Nat.ltb i 27 | Run _ => true end) l) t.
Proof.
  intros T. induction 1 as [|m l M _ IH]; [reflexivity|]. cbn [filter]. rewrite uses_all_cons, IH.
  destruct m as [i|i]; [|now rewrite uses_all_cons].
  destruct (Nat.ltb_spec i 27); [now rewrite uses_all_cons|]. cbn [uses]. rewrite (proj2 (Nat.eqb_neq t i)) by lia. lia.
Qed.
Lemma uses_hon_3 l t : (27 <= t)%nat -> Forall legal l -> exists k, 0 <= k /\ uses_all l t = 3 * k.
Proof.
  intros T. induction 1 as [|m l M _ IH]; [exists 0; split; [lia|reflexivity]|]. destruct IH as (k & K & E). rewrite uses_all_cons, E.
  destruct m as [i|i]; cbn [legal uses] in *.
  - destruct (Nat.eqb t i); [exists (k + 1)|exists k]; lia.
  - destruct M as [M1 M2]. pose proof (run_fits i M1 M2). rewrite (proj2 (Nat.leb_gt t (i + 2))) by lia. rewrite andb_false_r. exists k. lia.
Qed.

Lemma win_found h m : plain_hand h -> (m <= 4)%nat -> total h = 14 - 3 * Z.of_nat m -> standard_win h (4 - m) ->
  exists s', Reach 0 (sv_init h) s' /\ leaf_value s' <= -1.
Proof.
  intros P M4 T (sets & p & Ls & Lg & Pp & E). pose proof P as (L & B & Rd).
  destruct (sets_total h m P T) as [IM IP].
  set (suit := filter (fun m => match m with Triplet i => Nat.ltb i 27 | Run _ => true end) sets).
  set (pairs := if Nat.ltb p 27 then [p] else []).
  assert (X : Exact (vget h) suit pairs).
  { split; [|split].
    - apply Forall_forall. intros x X. apply filter_In in X. destruct X as [X F].
      pose proof (proj1 (Forall_forall _ _) Lg x X) as Q. destruct x as [i|i]; cbn [legal legal27] in *; [now apply Nat.ltb_lt|exact Q].
    - unfold pairs. destruct (Nat.ltb_spec p 27); [right; now exists p|now left].
    - intros t I. unfold vget. rewrite E by lia. rewrite (uses_split sets t I Lg). fold suit.
      unfold pairs. destruct (Nat.ltb_spec p 27) as [K|K]; [now rewrite two_1|].
      rewrite (proj2 (Nat.eqb_neq t p)) by lia. reflexivity. }
  assert (H7 : forall t, In t (seq 27 7) -> vget h t = 0 \/ vget h t = 2 \/ vget h t = 3).
  { intros t I. apply in_seq in I. unfold vget. pose proof (B t ltac:(lia)) as Bt. rewrite E in Bt |- * by lia.
    destruct (uses_hon_3 sets t ltac:(lia) Lg) as (k & K & EQ). rewrite EQ in Bt |- *. destruct (Nat.eqb t p); lia. }
  pose proof (S7_exact _ _ H7) as E7. fold (honT h) in E7. fold (honP h) in E7. fold (S7 (vget h)) in E7.
  pose proof (total_split h P) as TS.
  assert (HS : S27 (vget h) = 3 * Z.of_nat (length suit) + 2 * Z.of_nat (length pairs)).
  { destruct X as (X1 & X2 & X3). rewrite (S27_ext _ _ X3), S27_add, S27_uses_all, S27_two; [reflexivity| |exact X1].
    destruct X2 as [->|(q & Q & ->)]; constructor; [exact Q|constructor]. }
  assert (HP : Z.of_nat (length (honP h)) <= 1 - Z.of_nat (length pairs)).
  { assert (Q : forall t, In t (honP h) -> t = p).
    { intros t I. apply filter_in_range in I. destruct I as [I W]. apply Z.eqb_eq in W. unfold vget in W. rewrite E in W by lia.
      destruct (uses_hon_3 sets t ltac:(lia) Lg) as (k & K & EQ). rewrite EQ in W. destruct (Nat.eqb_spec t p); [assumption|lia]. }
    assert (ND : NoDup (honP h)) by (apply NoDup_filter, seq_NoDup).
    assert (R : forall t, In t (honP h) -> (27 <= t)%nat) by (intros t I; apply filter_in_range in I; lia).
    unfold pairs. destruct (honP h) as [|x [|y r]].
    - destruct (Nat.ltb p 27); cbn; lia.
    - specialize (Q x (or_introl eq_refl)). subst x. specialize (R p (or_introl eq_refl)).
      rewrite (proj2 (Nat.ltb_ge p 27)) by lia. cbn. lia.
    - exfalso. inversion ND as [|? ? N1 N2]; subst. apply N1. left. rewrite (Q y) by (right; now left). symmetry. apply Q. now left. }
  destruct (complete 140 0 (sv_init h) suit pairs) as (s' & R & A1 & A2 & A3).
  - apply mu_bound.
  - exact L.
  - lia.
  - intros t I. cbn [sv_init sv_hand]. unfold vget. specialize (B t ltac:(lia)). lia.
  - exact X.
  - intros t I. lia.
  - exists s'. split; [exact R|]. rewrite IM in A1. rewrite IP in A2. change (sv_taatsu (sv_init h)) with 0 in A3.
    unfold leaf_value. rewrite A1, A2, A3.
    assert (Q1 : Z.of_nat (length (honP h)) + Z.of_nat (length pairs) = 1) by lia.
    assert (Q2 : Z.of_nat m + Z.of_nat (length (honT h)) + Z.of_nat (length suit) = 4) by lia.
    rewrite Q1, Q2. unfold truthy. cbn [Z.eqb negb]. rewrite andb_false_r. lia.
Qed.

(** ** The three parts of [solve] *)

Definition normal_value (h : list Z) : Z :=
  match solve_normal 140 0 (sv_init h) with Some s => sv_best s | None => 0 end.

Lemma normal_ok h : length h = 37%nat -> solve_normal 140 0 (sv_init h) = Some (set_best (sv_init h) (normal_value h)) /\
  (forall x, normal_value h <= x <-> 14 <= x \/ exists s', Reach 0 (sv_init h) s' /\ leaf_value s' <= x).
Proof.
  intros L. destruct (solve_normal_result (sv_init h) L) as (b & E & H). unfold normal_value. rewrite E. cbn [set_best sv_best]. auto.
Qed.

Lemma normal_low h m : plain_hand h -> (m <= 4)%nat -> total h = 14 - 3 * Z.of_nat m ->
  -1 <= normal_value h /\ (normal_value h = -1 <-> standard_win h (4 - m)).
Proof.
  intros P M4 T. pose proof P as (L & _ & _). destruct (normal_ok h L) as [_ H].
  assert (A : -1 <= normal_value h).
  { destruct (Z.le_gt_cases (-1) (normal_value h)) as [A|A]; [exact A|exfalso].
    assert (Q : normal_value h <= -2) by lia. apply H in Q. destruct Q as [Q|(s' & R & V)]; [lia|].
    destruct (leaf_low h m s' P T R). lia. }
  split; [exact A|]. split.
  - intros E. assert (Q : normal_value h <= -1) by lia. apply H in Q. destruct Q as [Q|(s' & R & V)]; [lia|].
    apply (leaf_low h m s' P T R). exact V.
  - intros W. destruct (win_found h m P M4 T W) as (s' & R & V).
    assert (normal_value h <= -1) by (apply H; right; exists s'; auto). lia.
Qed.

Lemma solve_ck s : solve_kokushi (solve_chitoitsu s) =
  set_best s (Z.min (Z.min (sv_best s) (6 - sum_ge (sv_hand s) 2))
                    (13 - sum_ge (yaochu_arr (sv_hand s)) 1 - (py_max (yaochu_arr (sv_hand s)) - 1))).
Proof. destruct s. reflexivity. Qed.

Lemma solve_gen s v : solve_normal 140 0 s = Some (set_best s v) ->
  solve s = Some (Z.min (Z.min v (6 - sum_ge (sv_hand s) 2))
                    (13 - sum_ge (yaochu_arr (sv_hand s)) 1 - (py_max (yaochu_arr (sv_hand s)) - 1)),
                  set_best s (Z.min (Z.min v (6 - sum_ge (sv_hand s) 2))
                    (13 - sum_ge (yaochu_arr (sv_hand s)) 1 - (py_max (yaochu_arr (sv_hand s)) - 1)))).
Proof.
  intros E. unfold solve. rewrite E. cbn [obind]. rewrite solve_ck, set_best_set, set_best_best, set_best_hand. reflexivity.
Qed.

Lemma solve_ok h : length h = 37%nat -> exists b,
  shanten h = Some (b, set_best (sv_init h) b) /\
  b = Z.min (Z.min (normal_value h) (6 - sum_ge h 2)) (13 - sum_ge (yaochu_arr h) 1 - (py_max (yaochu_arr h) - 1)).
Proof.
  intros L. destruct (normal_ok h L) as [E _]. remember (normal_value h) as v.
  pose proof (solve_gen _ _ E) as G. change (sv_hand (sv_init h)) with h in G.
  eexists. split; [exact G|reflexivity].
Qed.

(** seven pairs *)
Lemma sum_ge_index h x : sum_ge h x = vsum (map (fun t => b2z (x <=? vget h t)) (seq 0 (length h))).
Proof.
  unfold sum_ge. rewrite <- (map_map (vget h) (fun y => b2z (x <=? y))). f_equal. f_equal.
  apply list_eq_vget; [now rewrite map_length, seq_length|].
  intros k K. unfold vget at 2. rewrite (nth_indep _ 0 (vget h 0)) by now rewrite map_length, seq_length.
  rewrite map_nth, seq_nth by exact K. reflexivity.
Qed.

Lemma pairs_low l (f : nat -> Z) : (forall t, In t l -> 0 <= f t) ->
  2 * Z.of_nat (length (filter (fun t => 2 <=? f t) l)) <= vsum (map f l) /\
  (2 * Z.of_nat (length (filter (fun t => 2 <=? f t) l)) = vsum (map f l) -> forall t, In t l -> f t = 0 \/ f t = 2).
Proof.
  induction l as [|x l IH]; intros N; [cbn; split; [lia|intros _ t []]|].
  destruct IH as [A B]; [intros t T; apply N; now right|]. pose proof (N x (or_introl eq_refl)) as X.
  cbn [filter map vsum fold_right]. fold (vsum (map f l)).
  destruct (Z.leb_spec 2 (f x)) as [Q|Q]; cbn [length]; split; try lia;
    intros E t [<-|T]; try lia; apply B; (lia || assumption).
Qed.

Lemma chitoi_low h m : plain_hand h -> total h = 14 - 3 * Z.of_nat m ->
  -1 <= 6 - sum_ge h 2 /\ (6 - sum_ge h 2 = -1 -> seven_pairs h).
Proof.
  intros (L & B & R) T. rewrite sum_ge_index, L, sum_b2z.
  assert (N : forall t, In t (seq 0 37) -> 0 <= vget h t).
  { intros t I. apply in_seq in I. unfold vget. destruct (Nat.lt_ge_cases t 34); [specialize (B t ltac:(lia)); lia|]. rewrite R; lia. }
  destruct (pairs_low (seq 0 37) (vget h) N) as [G1 G2].
  assert (TS : vsum (map (vget h) (seq 0 37)) = total h) by (unfold total; change (fold_right Z.add 0 h) with (vsum h); rewrite (vsum_index h), L; reflexivity).
  rewrite TS, T in G1, G2. split; [lia|]. intros E. split.
  - intros t I. apply G2; [lia|]. apply in_seq. lia.
  - exists (filter (fun t => 2 <=? vget h t) (seq 0 37)). split; [apply NoDup_filter, seq_NoDup|]. split; [lia|].
    intros t I. apply filter_In in I. destruct I as [I Q]. apply Z.leb_le in Q. apply in_seq in I.
    assert (t < 34)%nat. { destruct (Nat.lt_ge_cases t 34); [assumption|]. unfold vget in Q. rewrite R in Q by lia. lia. }
    split; [assumption|]. destruct (G2 ltac:(lia) t) as [W|W]; [apply in_seq; lia| |exact W]. lia.
Qed.

Lemma chitoi_found h : plain_hand h -> seven_pairs h -> 6 - sum_ge h 2 <= -1.
Proof.
  intros (L & B & R) (_ & l & ND & Ll & Hl). rewrite sum_ge_index, L, sum_b2z.
  assert (Z.of_nat 7 <= Z.of_nat (length (filter (fun t => 2 <=? vget h t) (seq 0 37)))).
  { rewrite <- Ll. apply Nat2Z.inj_le. apply NoDup_incl_length; [exact ND|]. intros t I. destruct (Hl t I) as [A E].
    apply filter_In. split; [apply in_seq; lia|]. unfold vget. rewrite E. reflexivity. }
  lia.
Qed.

(** thirteen orphans *)
Lemma yaochu_at h t : length h = 37%nat -> vget (yaochu_arr h) t = if existsb (Nat.eqb t) (orphans ++ [34%nat]) then vget h t else 0.
Proof.
  intros L. unfold yaochu_arr.
  do 37 (destruct h as [|? h]; [discriminate L|]). destruct h; [|discriminate L].
  cbn [combine map YAOCHU_TENSOR]. unfold vget.
  do 37 (destruct t as [|t]; [cbn; ring|]). cbn. destruct t; reflexivity.
Qed.

Definition present (h : list Z) : list nat := filter (fun t => 1 <=? nth t h 0) orphans.

Lemma py_max_in v : v <> [] -> In (py_max v) v.
Proof.
  destruct v as [|x v]; [contradiction|]. intros _. cbn [py_max]. revert x. induction v as [|y v IH]; intros x; cbn [fold_left]; [now left|].
  destruct (IH (Z.max x y)) as [E|E].
  - rewrite <- E. destruct (Z.max_spec x y) as [[_ ->]|[_ ->]]; [right; now left|now left].
  - right. now right.
Qed.
Lemma py_max_ge v x : In x v -> x <= py_max v.
Proof.
  assert (G : forall v a, a <= fold_left Z.max v a /\ forall x, In x v -> x <= fold_left Z.max v a).
  { clear. induction v as [|y v IH]; intros a; cbn [fold_left]; [split; [lia|intros x []]|].
    destruct (IH (Z.max a y)) as [A B]. split; [lia|]. intros x [<-|X]; [lia|now apply B]. }
  destruct v as [|y v]; [intros []|]. cbn [py_max]. intros [<-|X]; [apply (proj1 (G v y))|apply (proj2 (G v y)); exact X].
Qed.

Lemma plain_ge h t : plain_hand h -> 0 <= nth t h 0.
Proof. intros (_ & B & R). destruct (Nat.lt_ge_cases t 34); [apply B; assumption|]. rewrite R; lia. Qed.

Lemma yaochu_len h : length h = 37%nat -> length (yaochu_arr h) = 37%nat.
Proof. intros L. unfold yaochu_arr. rewrite map_length, combine_length, L. reflexivity. Qed.

Lemma yaochu_plain h t : plain_hand h -> vget (yaochu_arr h) t = if existsb (Nat.eqb t) orphans then nth t h 0 else 0.
Proof.
  intros (L & _ & R). rewrite yaochu_at by exact L. rewrite existsb_app. cbn [existsb]. rewrite orb_false_r.
  destruct (existsb (Nat.eqb t) orphans); [reflexivity|]. cbn [orb]. destruct (Nat.eqb_spec t 34) as [->|]; [|reflexivity].
  unfold vget. apply R. lia.
Qed.

Lemma in_orphans t : existsb (Nat.eqb t) orphans = true <-> In t orphans.
Proof.
  rewrite existsb_exists. split; [intros (x & X & E); apply Nat.eqb_eq in E; now subst|]. intros I. exists t. split; [exact I|apply Nat.eqb_refl].
Qed.

Lemma kokushi_types h : plain_hand h -> sum_ge (yaochu_arr h) 1 = Z.of_nat (length (present h)).
Proof.
  intros P. pose proof P as (L & _ & _). rewrite sum_ge_index, yaochu_len, sum_b2z by exact L.
  assert (F : forall l, filter (fun t => 1 <=? vget (yaochu_arr h) t) l =
    filter (fun t => 1 <=? nth t h 0) (filter (fun t => existsb (Nat.eqb t) orphans) l)).
  { induction l as [|x l IH]; [reflexivity|]. cbn [filter]. rewrite IH, yaochu_plain by exact P.
    destruct (existsb (Nat.eqb x) orphans); [reflexivity|]. reflexivity. }
  rewrite F. reflexivity.
Qed.

Lemma kokushi_max h : plain_hand h -> (exists d, In d orphans /\ py_max (yaochu_arr h) = nth d h 0) /\
  forall t, In t orphans -> nth t h 0 <= py_max (yaochu_arr h).
Proof.
  intros P. pose proof P as (L & _ & _).
  assert (G : forall t, In t orphans -> nth t h 0 <= py_max (yaochu_arr h)).
  { intros t I. apply py_max_ge. replace (nth t h 0) with (vget (yaochu_arr h) t).
    - apply nth_In. rewrite yaochu_len by exact L. cbn in I. lia.
    - rewrite yaochu_plain by exact P. now rewrite (proj2 (in_orphans t) I). }
  split; [|exact G].
  assert (N : yaochu_arr h <> []) by (intros E; pose proof (yaochu_len h L) as Q; rewrite E in Q; discriminate).
  destruct (In_nth _ _ 0 (py_max_in _ N)) as (d & D & E). fold (vget (yaochu_arr h) d) in E.
  rewrite yaochu_plain in E by exact P. destruct (existsb (Nat.eqb d) orphans) eqn:O.
  - exists d. split; [now apply in_orphans|now symmetry].
  - exists 0%nat. split; [now left|]. pose proof (G 0%nat (or_introl eq_refl)). pose proof (plain_ge h 0 P). lia.
Qed.

Lemma sum_types l (f : nat -> Z) d : (forall t, 0 <= f t) -> 1 <= f d -> In d l ->
  Z.of_nat (length (filter (fun t => 1 <=? f t) l)) - 1 + f d <= vsum (map f l).
Proof.
  intros N G I. assert (W : forall l, Z.of_nat (length (filter (fun t => 1 <=? f t) l)) <= vsum (map f l)).
  { clear - N. induction l as [|x l IH]; [reflexivity|]. cbn [filter map vsum fold_right]. fold (vsum (map f l)). specialize (N x).
    destruct (Z.leb_spec 1 (f x)); cbn [length]; lia. }
  induction l as [|x l IH]; [destruct I|]. cbn [filter map vsum fold_right]. fold (vsum (map f l)).
  destruct I as [->|I].
  - rewrite (proj2 (Z.leb_le 1 (f d)) G). cbn [length]. specialize (W l). lia.
  - specialize (IH I). specialize (N x). destruct (Z.leb_spec 1 (f x)); cbn [length]; lia.
Qed.

Lemma sum_sub (f : nat -> Z) l l' : (forall t, 0 <= f t) -> NoDup l -> incl l l' -> vsum (map f l) <= vsum (map f l').
Proof.
  intros N. revert l'. induction l as [|x l IH]; intros l' ND I.
  - apply vsum_nonneg. apply Forall_forall. intros y Y. apply in_map_iff in Y. destruct Y as (t & <- & _). apply N.
  - destruct (in_split x l') as (a & b & ->); [apply I; now left|].
    inversion ND as [|? ? N1 N2]; subst.
    assert (Q : vsum (map f l) <= vsum (map f (a ++ b))).
    { apply IH; [exact N2|]. intros y Y. specialize (I y (or_intror Y)). apply in_app_or in I. apply in_or_app.
      destruct I as [I|[->|I]]; [now left|contradiction|now right]. }
    rewrite map_app, vsum_app in *. cbn [map vsum fold_right]. fold (vsum (map f l)). fold (vsum (map f b)). lia.
Qed.

Lemma orphans_nodup : NoDup orphans.
Proof. unfold orphans. repeat (constructor; [cbn; lia|]). constructor. Qed.

Lemma orphans_total h : plain_hand h -> vsum (map (fun t => nth t h 0) orphans) <= total h.
Proof.
  intros P. pose proof P as (L & _ & _). unfold total. change (fold_right Z.add 0 h) with (vsum h). rewrite (vsum_index h), L.
  apply (sum_sub (vget h)); [intros t; apply plain_ge; exact P|apply orphans_nodup|].
  intros t I. apply in_seq. cbn in I. lia.
Qed.

Lemma filter_length_le {A} (p : A -> bool) l : (length (filter p l) <= length l)%nat.
Proof. induction l as [|x l IH]; cbn [filter length]; [lia|]. destruct (p x); cbn [length]; lia. Qed.

Lemma kokushi_low h m : plain_hand h -> total h = 14 - 3 * Z.of_nat m ->
  -1 <= 13 - sum_ge (yaochu_arr h) 1 - (py_max (yaochu_arr h) - 1) /\
  (13 - sum_ge (yaochu_arr h) 1 - (py_max (yaochu_arr h) - 1) = -1 <->
   exists d, In d orphans /\ Z.of_nat (length (present h)) + nth d h 0 = 15).
Proof.
  intros P T. rewrite kokushi_types by exact P. destruct (kokushi_max h P) as [(d & D & E) G]. rewrite E in G |- *.
  assert (N : forall t, 0 <= (fun t => nth t h 0) t) by (intros t; apply plain_ge; exact P).
  assert (B : Z.of_nat (length (present h)) + nth d h 0 <= 15).
  { destruct (Z.le_gt_cases 1 (nth d h 0)) as [Q|Q].
    - pose proof (sum_types orphans (fun t => nth t h 0) d N Q D) as W. cbv beta in W. fold (present h) in W.
      pose proof (orphans_total h P). lia.
    - assert (length (present h) <= 13)%nat by (unfold present; transitivity (length orphans); [apply filter_length_le|cbn; lia]). lia. }
  split; [lia|]. split.
  - intros Q. exists d. split; [exact D|lia].
  - intros (d' & D' & Q). specialize (G d' D'). lia.
Qed.

Lemma zero_sum l (g : nat -> Z) : (forall t, In t l -> 0 <= g t) -> vsum (map g l) <= 0 -> forall t, In t l -> g t = 0.
Proof.
  induction l as [|x l IH]; intros N S t []; cbn [map vsum fold_right] in S; fold (vsum (map g l)) in S.
  - subst x. pose proof (N t (or_introl eq_refl)).
    assert (0 <= vsum (map g l)) by (apply vsum_nonneg; apply Forall_forall; intros y Y; apply in_map_iff in Y; destruct Y as (u & <- & U); apply N; now right). lia.
  - pose proof (N x (or_introl eq_refl)). apply IH; [intros u U; apply N; now right|lia|assumption].
Qed.

Lemma filter_full {A} (p : A -> bool) l : length (filter p l) = length l -> forall x, In x l -> p x = true.
Proof.
  induction l as [|y l IH]; [intros _ x []|]. cbn [filter length]. pose proof (filter_length_le p l) as F.
  destruct (p y) eqn:E; cbn [length]; intros H; [|lia]. intros x [<-|X]; [exact E|]. apply IH; [lia|exact X].
Qed.

Lemma kokushi_real h d : plain_hand h -> total h <= 14 -> In d orphans -> nth d h 0 <= 2 ->
  Z.of_nat (length (present h)) + nth d h 0 = 15 -> thirteen_orphans h.
Proof.
  intros P T D D2 E. exists d. split; [exact D|].
  pose proof (filter_length_le (fun t => 1 <=? nth t h 0) orphans) as F. fold (present h) in F. change (length orphans) with 13%nat in F.
  assert (ED : nth d h 0 = 2) by lia. assert (EP : length (present h) = length orphans) by (change (length orphans) with 13%nat; lia).
  pose proof (filter_full _ _ EP) as A.
  set (w := fun t => (if existsb (Nat.eqb t) orphans then 1 else 0) + (if Nat.eqb t d then 1 else 0)).
  assert (GE : forall t, w t <= nth t h 0).
  { intros t. unfold w. destruct (existsb (Nat.eqb t) orphans) eqn:O.
    - apply in_orphans in O. specialize (A t O). apply Z.leb_le in A. destruct (Nat.eqb_spec t d) as [->|]; lia.
    - destruct (Nat.eqb_spec t d) as [->|]; [rewrite (proj2 (in_orphans d) D) in O; discriminate|]. pose proof (plain_ge h t P). lia. }
  pose proof P as (L & _ & R).
  assert (Z0 : forall t, In t (seq 0 37) -> nth t h 0 + - w t = 0).
  { apply (zero_sum (seq 0 37) (fun t => nth t h 0 + - w t)); [intros t _; specialize (GE t); lia|].
    rewrite (vsum_map_add (fun t => nth t h 0) (fun t => - w t)).
    assert (vsum (map (fun t => nth t h 0) (seq 0 37)) = total h) as ->
      by (unfold total; change (fold_right Z.add 0 h) with (vsum h); rewrite (vsum_index h), L; reflexivity).
    assert (vsum (map (fun t => - w t) (seq 0 37)) = -14); [|lia].
    unfold w. clear - D. cbn in D.
    repeat (destruct D as [<-|D]; [vm_compute; reflexivity|]). destruct D. }
  intros t I. specialize (Z0 t ltac:(apply in_seq; lia)). fold (w t). lia.
Qed.

Lemma kokushi_found h : thirteen_orphans h -> exists d, In d orphans /\ Z.of_nat (length (present h)) + nth d h 0 = 15.
Proof.
  intros (d & D & E). exists d. split; [exact D|].
  assert (I34 : forall t, In t orphans -> (t < 34)%nat) by (intros t I; cbn in I; lia).
  rewrite (E d (I34 d D)), (proj2 (in_orphans d) D), Nat.eqb_refl.
  unfold present.
  assert (Q : filter (fun t => 1 <=? nth t h 0) orphans = orphans).
  { assert (G : forall l, incl l orphans -> filter (fun t => 1 <=? nth t h 0) l = l).
    { induction l as [|x l IH]; [reflexivity|]. intros I. cbn [filter].
      assert (X : In x orphans) by (apply I; now left).
      rewrite (E x (I34 x X)), (proj2 (in_orphans x) X).
      rewrite (proj2 (Z.leb_le _ _)) by (destruct (Nat.eqb x d); lia). f_equal. apply IH. intros y Y. apply I. now right. }
    apply G. intros y Y; exact Y. }
  rewrite Q. reflexivity.
Qed.
