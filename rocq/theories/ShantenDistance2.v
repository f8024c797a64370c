(** Distances to seven pairs and thirteen orphans. *)
From Coq Require Import ZArith List Bool Lia Arith Permutation.
From Verif Require Import Base Constants VecLemmas Shanten SpecShanten SpecDistance ShantenSearch ShantenLemmas ShantenWins ShantenDistance.
Import ListNotations.
Open Scope Z_scope.

(** six pairs, of which four of terminals and honours, and one 2m *)
Definition script : list Z := [2; 1; 0; 0; 2; 0; 0; 0; 2] ++ repeat 0 17 ++ [2; 2; 2] ++ repeat 0 8.

Lemma hon_uses l t : Forall legal l -> (27 <= t)%nat -> exists k, 0 <= k /\ uses_all l t = 3 * k.
Proof.
  intros F T. induction F as [|m l M _ (k & K & E)]; [exists 0; split; [lia|reflexivity]|].
  rewrite uses_all_cons, E. destruct m as [i|i]; cbn [uses legal] in *.
  - destruct (Nat.eqb t i); [exists (k + 1)|exists k]; lia.
  - destruct M as [M1 M2]. pose proof (run_fits i M1 M2). rewrite (proj2 (Nat.leb_gt t (i + 2))) by lia. rewrite andb_false_r. exists k. lia.
Qed.

Lemma uses_nonneg l t : 0 <= uses_all l t.
Proof.
  induction l as [|m l IH]; [cbn; lia|]. rewrite uses_all_cons. destruct m as [i|i]; cbn [uses].
  - destruct (Nat.eqb t i); lia.
  - destruct (Nat.leb i t && Nat.leb t (i + 2)); lia.
Qed.

(** Honours only make triplets and the pair. *)
Lemma honours_apart w : physical w -> standard_win w 4 ->
  S34 (fun t => nth t w 0) = 14 /\ forall t, (t < 34)%nat -> 0 <= nth t w 0 /\ ((27 <= t)%nat -> nth t w 0 <= 3).
Proof.
  intros Ph (sets & p & L & F & Hp & H). split.
  - rewrite (S34_ext _ _ H), S34_add, S34_at, S34_uses_all, L by assumption. reflexivity.
  - intros t T. split.
    + rewrite H by exact T. pose proof (uses_nonneg sets t). destruct (Nat.eqb t p); lia.
    + intros K. specialize (Ph t T). rewrite H in * by exact T. destruct (hon_uses sets t F K) as (k & K0 & E). rewrite E in *. destruct (Nat.eqb t p); lia.
Qed.

Lemma S34_list (g : nat -> Z) l : NoDup l -> (forall t, In t l -> (t < 34)%nat) ->
  S34 (fun t => if existsb (Nat.eqb t) l then g t else 0) = vsum (map g l).
Proof.
  induction 1 as [|x l N _ IH]; intros B; [reflexivity|]. cbn [map vsum fold_right]. fold (vsum (map g l)).
  rewrite <- IH by (intros t I; apply B; now right). rewrite <- (S34_at x (g x)) at 1 by (apply B; now left). rewrite <- S34_add.
  apply S34_ext. intros t T. cbn [existsb]. destruct (Nat.eqb_spec t x) as [->|NE]; cbn [orb]; [|lia].
  destruct (existsb (Nat.eqb x) l) eqn:E; [|lia]. apply existsb_exists in E as (y & Y & E). apply Nat.eqb_eq in E. subst y. contradiction.
Qed.

Lemma in_existsb t l : existsb (Nat.eqb t) l = true <-> In t l.
Proof.
  rewrite existsb_exists. split; [intros (x & X & E); apply Nat.eqb_eq in E; now subst|]. intros I. exists t. split; [exact I|apply Nat.eqb_refl].
Qed.

(** The two-valued count vector of a seven pairs hand *)
Lemma seven_list w : seven_pairs w -> exists l, NoDup l /\ length l = 7%nat /\ (forall t, In t l -> (t < 34)%nat) /\
  forall t, (t < 34)%nat -> nth t w 0 = 0 \/ nth t w 0 = 2.
Proof. intros (A & l & N & L & H). exists l. repeat split; auto. intros t I. apply H, I. Qed.

Lemma pairs_lower h w : plain_hand h -> seven_pairs w -> 7 - sum_ge h 2 <= missing h w.
Proof.
  intros (L & B & R) (A & l & N & Ll & Hl). rewrite missing_S34, sum_ge_index, L, sum_b2z.
  assert (Q : S34 (fun t => if existsb (Nat.eqb t) l then b2z (negb (2 <=? vget h t)) else 0) <= S34 (fun t => Z.max 0 (nth t w 0 - nth t h 0))).
  { apply S34_le. intros t T. destruct (existsb (Nat.eqb t) l) eqn:E; [|lia]. apply in_existsb in E. destruct (Hl t E) as [_ E2]. rewrite E2.
    unfold vget. destruct (Z.leb_spec 2 (nth t h 0)); cbn [negb b2z]; lia. }
  rewrite S34_list in Q by (exact N || (intros t I; apply Hl, I)). rewrite sum_b2z in Q.
  assert (C : (length (filter (fun t => (2 <=? vget h t)%Z) l) + length (filter (fun t => negb (2 <=? vget h t)%Z) l) = 7)%nat).
  { rewrite <- Ll. clear. induction l as [|x l IH]; [reflexivity|]. cbn [filter]. destruct (2 <=? vget h x); cbn [negb length]; lia. }
  assert (I : (length (filter (fun t => (2 <=? vget h t)%Z) l) <= length (filter (fun t => (2 <=? vget h t)%Z) (seq 0 37)))%nat).
  { apply NoDup_incl_length; [now apply NoDup_filter|]. intros t I. apply filter_In in I as [I1 I2]. apply filter_In. split; [|exact I2].
    apply in_seq. pose proof (proj1 (Hl t I1)). lia. }
  lia.
Qed.

Lemma chitoi_nonneg h : 0 <= sum_ge h 2.
Proof. rewrite sum_ge_index, sum_b2z. lia. Qed.

Lemma seven_total w : seven_pairs w -> 14 <= S34 (fun t => nth t w 0) /\ forall t, (t < 34)%nat -> 0 <= nth t w 0 <= 2.
Proof.
  intros (A & l & N & Ll & Hl). split.
  - assert (Q : S34 (fun t => if existsb (Nat.eqb t) l then 2 else 0) <= S34 (fun t => nth t w 0)).
    { apply S34_le. intros t T. destruct (existsb (Nat.eqb t) l) eqn:E.
      - apply in_existsb in E. rewrite (proj2 (Hl t E)). lia.
      - destruct (A t T) as [-> | ->]; lia. }
    rewrite (S34_list (fun _ => 2)) in Q by (exact N || (intros t I; apply Hl, I)).
    assert (E : vsum (map (fun _ : nat => 2) l) = 2 * Z.of_nat (length l)).
    { clear. induction l as [|x l IH]; [reflexivity|]. cbn [map vsum fold_right length] in *. fold (vsum (map (fun _ : nat => 2) l)). lia. }
    rewrite E, Ll in Q. exact Q.
  - intros t T. destruct (A t T) as [-> | ->]; lia.
Qed.

(** With exactly seven types in the list, the hand has fourteen tiles. *)
Definition pair_hand (l : list nat) : list Z := map (fun t => if existsb (Nat.eqb t) l then 2 else 0) (seq 0 34).
Lemma pair_hand_at l t : (t < 34)%nat -> nth t (pair_hand l) 0 = if existsb (Nat.eqb t) l then 2 else 0.
Proof.
  intros T. unfold pair_hand. set (f := fun t => if existsb (Nat.eqb t) l then 2 else 0).
  rewrite nth_indep with (d' := f 34%nat) by (rewrite map_length, seq_length; exact T).
  rewrite map_nth, seq_nth by exact T. reflexivity.
Qed.

Lemma NoDup_two {A} (a b : list A) : NoDup a -> NoDup b -> (forall x, In x a -> In x b -> False) -> NoDup (a ++ b).
Proof.
  induction 1 as [|x a N _ IH]; intros B D; [exact B|]. cbn [app]. constructor.
  - intros I. apply in_app_or in I as [I|I]; [contradiction|]. apply (D x); [now left|exact I].
  - apply IH; [exact B|]. intros y I. apply D. now right.
Qed.
Lemma NoDup_front {A} (a b : list A) : NoDup (a ++ b) -> NoDup a.
Proof.
  induction a as [|x a IH]; intros N; [constructor|]. cbn [app] in N. inversion N as [|? ? N1 N2]; subst. constructor; [|now apply IH].
  intros I. apply N1. apply in_or_app. now left.
Qed.

Lemma filter_both {A} (f : A -> bool) l : (length (filter f l) + length (filter (fun x => negb (f x)) l) = length l)%nat.
Proof. induction l as [|x l IH]; [reflexivity|]. cbn [filter]. destruct (f x); cbn [negb length]; lia. Qed.

(** Tiles missing for pairs of given types *)
Lemma need_two h l : (forall t, In t l -> 0 <= nth t h 0) ->
  vsum (map (fun t => Z.max 0 (2 - nth t h 0)) l) =
  2 * Z.of_nat (length l) - Z.of_nat (length (filter (fun t => 2 <=? nth t h 0) l)) - Z.of_nat (length (filter (fun t => 1 <=? nth t h 0) l)).
Proof.
  induction l as [|x l IH]; intros N; [reflexivity|]. cbn [map vsum fold_right filter]. fold (vsum (map (fun t => Z.max 0 (2 - nth t h 0)) l)).
  rewrite IH by (intros t I; apply N; now right). pose proof (N x (or_introl eq_refl)).
  destruct (Z.leb_spec 2 (nth x h 0)), (Z.leb_spec 1 (nth x h 0)); cbn [length]; lia.
Qed.

Lemma sum_ge_doubles h : plain_hand h -> sum_ge h 2 = Z.of_nat (doubles h).
Proof.
  intros (L & B & R). rewrite sum_ge_index, L, sum_b2z. change (seq 0 37) with (seq 0 34 ++ [34; 35; 36]%nat). rewrite filter_app, app_length.
  cbn [filter]. replace (vget h 34) with 0 by (symmetry; apply R; lia). replace (vget h 35) with 0 by (symmetry; apply R; lia).
  replace (vget h 36) with 0 by (symmetry; apply R; lia). change (2 <=? 0) with false. cbn [length]. unfold doubles, vget. lia.
Qed.

Lemma pairs_far h w : plain_hand h -> seven_pairs w -> 14 - Z.of_nat (doubles h) - Z.of_nat (kinds h) <= missing h w /\ 7 - Z.of_nat (doubles h) <= missing h w.
Proof.
  intros P (A & l & N & Ll & Hl). pose proof P as (L & B & R). rewrite missing_S34.
  assert (Q : S34 (fun t => if existsb (Nat.eqb t) l then Z.max 0 (2 - nth t h 0) else 0) <= S34 (fun t => Z.max 0 (nth t w 0 - nth t h 0))).
  { apply S34_le. intros t T. destruct (existsb (Nat.eqb t) l) eqn:E; [|lia]. apply in_existsb in E. rewrite (proj2 (Hl t E)). lia. }
  rewrite S34_list in Q by (exact N || (intros t I; apply Hl, I)).
  rewrite need_two in Q by (intros t I; apply B, Hl, I). rewrite Ll in Q.
  assert (I : forall f : nat -> bool, (length (filter f l) <= length (filter f (seq 0 34)))%nat).
  { intros f. apply NoDup_incl_length; [now apply NoDup_filter|]. intros t I. apply filter_In in I as [I1 I2]. apply filter_In. split; [|exact I2].
    apply in_seq. pose proof (proj1 (Hl t I1)). lia. }
  assert (I2 : (length (filter (fun t => (2 <=? nth t h 0)%Z) l) <= doubles h)%nat) by exact (I _). assert (I1 : (length (filter (fun t => (1 <=? nth t h 0)%Z) l) <= kinds h)%nat) by exact (I _). clear I.
  pose proof (filter_both (fun t => 1 <=? nth t h 0) l) as C. rewrite Ll in C. lia.
Qed.

Lemma pairs_near h : plain_hand h -> total h <= 14 ->
  exists w, physical w /\ seven_pairs w /\ total w = 14 /\ missing h w = 7 - Z.of_nat (doubles h) + Z.max 0 (7 - Z.of_nat (kinds h)).
Proof.
  intros P T. pose proof P as (L & B & R).
  set (D := filter (fun t => 2 <=? nth t h 0) (seq 0 34)).
  set (O := filter (fun t => nth t h 0 =? 1) (seq 0 34)).
  set (N := filter (fun t => negb (1 <=? nth t h 0)) (seq 0 34)).
  assert (KD : (length D + length O = kinds h)%nat).
  { unfold kinds, D, O. clear. induction (seq 0 34) as [|x l IH]; [reflexivity|]. cbn [filter].
    destruct (Z.leb_spec 2 (nth x h 0)), (Z.eqb_spec (nth x h 0) 1), (Z.leb_spec 1 (nth x h 0)); cbn [length]; lia. }
  assert (KN : (kinds h + length N = 34)%nat).
  { unfold kinds, N. rewrite filter_both. apply seq_length. }
  assert (ED : doubles h = length D) by reflexivity.
  assert (D7 : (length D <= 7)%nat).
  { assert (G0 : forall t, In t (seq 0 34) -> 0 <= nth t h 0) by (intros t I; apply in_seq in I; apply B; lia).
    pose proof (proj1 (pairs_low (seq 0 34) (fun t => nth t h 0) G0)) as G. cbv beta in G. fold D in G.
    pose proof (total_split h P) as TS. assert (E : vsum (map (fun t => nth t h 0) (seq 0 34)) = total h).
    { rewrite TS. change (seq 0 34) with (seq 0 27 ++ seq 27 7). rewrite map_app, vsum_app. reflexivity. }
    lia. }
  set (l := firstn 7 (D ++ O ++ N)).
  assert (NDA : NoDup (D ++ O ++ N)).
  { apply NoDup_two; [apply NoDup_filter, seq_NoDup|apply NoDup_two; [apply NoDup_filter, seq_NoDup|apply NoDup_filter, seq_NoDup|]|].
    - intros t I J. apply filter_In in I as [_ I]. apply filter_In in J as [_ J]. apply Z.eqb_eq in I. rewrite I in J. discriminate J.
    - intros t I J. apply filter_In in I as [_ I]. apply Z.leb_le in I. apply in_app_or in J as [J|J]; apply filter_In in J as [_ J].
      + apply Z.eqb_eq in J. lia.
      + rewrite (proj2 (Z.leb_le 1 (nth t h 0))) in J by lia. discriminate J. }
  assert (ND : NoDup l) by (rewrite <- (firstn_skipn 7 (D ++ O ++ N)) in NDA; eapply NoDup_front, NDA).
  assert (LL : length l = 7%nat) by (unfold l; rewrite firstn_length, !app_length; lia).
  assert (BL : forall t, In t l -> (t < 34)%nat).
  { intros t I. assert (J : In t (D ++ O ++ N)) by (rewrite <- (firstn_skipn 7 (D ++ O ++ N)); apply in_or_app; now left).
    apply in_app_or in J as [J|J]; [|apply in_app_or in J as [J|J]]; apply filter_In in J as [J _]; apply in_seq in J; lia. }
  exists (pair_hand l). split; [|split; [|split]].
  - intros t I. rewrite pair_hand_at by exact I. destruct (existsb (Nat.eqb t) l); lia.
  - split.
    + intros t I. rewrite pair_hand_at by exact I. destruct (existsb (Nat.eqb t) l); auto.
    + exists l. repeat split; auto. rewrite pair_hand_at by auto. now rewrite (proj2 (in_existsb t l)).
  - assert (E : total (pair_hand l) = S34 (fun t => if existsb (Nat.eqb t) l then 2 else 0)) by (unfold total, pair_hand, S34, vsum; reflexivity).
    rewrite E.
    rewrite (S34_list (fun _ => 2)) by assumption. clear - LL.
    do 7 (destruct l as [|? l]; [discriminate LL|]). destruct l; [reflexivity|discriminate LL].
  - rewrite missing_S34.
    rewrite (S34_ext _ (fun t => if existsb (Nat.eqb t) l then Z.max 0 (2 - nth t h 0) else 0)).
    2: { intros t I. rewrite pair_hand_at by exact I. pose proof (proj1 (B t I)). destruct (existsb (Nat.eqb t) l); lia. }
    rewrite S34_list by assumption. rewrite ED.
    assert (V : forall k l', (forall t, In t l' -> Z.max 0 (2 - nth t h 0) = k) -> vsum (map (fun t => Z.max 0 (2 - nth t h 0)) l') = k * Z.of_nat (length l')).
    { intros k. induction l' as [|x l' IH]; intros I; [cbn; lia|]. cbn [map vsum fold_right length]. fold (vsum (map (fun t => Z.max 0 (2 - nth t h 0)) l')).
      rewrite IH by (intros y Y; apply I; now right). rewrite (I x (or_introl eq_refl)). lia. }
    assert (FN : forall n (l' : list nat) t, In t (firstn n l') -> In t l') by (intros n l' t I; rewrite <- (firstn_skipn n l'); apply in_or_app; now left).
    unfold l. rewrite !firstn_app, !map_app, !vsum_app, (firstn_all2 D) by lia.
    rewrite (V 0 D), (V 1 (firstn _ O)), (V 2 (firstn _ N)), !firstn_length.
    + lia.
    + intros t I. apply FN, filter_In in I as [I J]. apply in_seq in I. destruct (Z.leb_spec 1 (nth t h 0)); [discriminate J|]. pose proof (B t ltac:(lia)). lia.
    + intros t I. apply FN, filter_In in I as [_ I]. apply Z.eqb_eq in I. lia.
    + intros t I. apply filter_In in I as [_ I]. apply Z.leb_le in I. lia.
Qed.

(** thirteen orphans *)
Definition orphan_hand (d : nat) : list Z :=
  map (fun t => (if existsb (Nat.eqb t) orphans then 1 else 0) + (if Nat.eqb t d then 1 else 0)) (seq 0 34).
Lemma orphan_hand_at d t : (t < 34)%nat -> nth t (orphan_hand d) 0 = (if existsb (Nat.eqb t) orphans then 1 else 0) + (if Nat.eqb t d then 1 else 0).
Proof.
  intros T. unfold orphan_hand. set (f := fun t => (if existsb (Nat.eqb t) orphans then 1 else 0) + (if Nat.eqb t d then 1 else 0)).
  rewrite nth_indep with (d' := f 34%nat) by (rewrite map_length, seq_length; exact T).
  rewrite map_nth, seq_nth by exact T. reflexivity.
Qed.

Lemma orphans_lt d : In d orphans -> (d < 34)%nat. Proof. cbn. lia. Qed.
Lemma orphans_nodup : NoDup orphans.
Proof. repeat (constructor; [cbn; lia|]). constructor. Qed.

(** How far a hand is from the orphan hand with pair [d] *)
Lemma orphans_missing h d w : plain_hand h -> In d orphans ->
  (forall t, (t < 34)%nat -> nth t w 0 = (if existsb (Nat.eqb t) orphans then 1 else 0) + (if Nat.eqb t d then 1 else 0)) ->
  missing h w = 13 - Z.of_nat (length (present h)) + (if 2 <=? nth d h 0 then 0 else 1).
Proof.
  intros P D H. rewrite missing_S34.
  rewrite (S34_ext _ (fun t => (if existsb (Nat.eqb t) orphans then b2z (negb (1 <=? nth t h 0)) else 0) + (if Nat.eqb t d then if 2 <=? nth d h 0 then 0 else 1 else 0))).
  - rewrite S34_add, S34_list, S34_at by (exact orphans_nodup || exact orphans_lt || exact (orphans_lt d D)).
    rewrite sum_b2z. unfold present.
    assert (E : forall l, (length (filter (fun t => negb (1 <=? nth t h 0)%Z) l) + length (filter (fun t => (1 <=? nth t h 0)%Z) l) = length l)%nat).
    { induction l as [|x l IH]; [reflexivity|]. cbn [filter]. destruct (1 <=? nth x h 0); cbn [negb length]; lia. }
    specialize (E orphans). change (length orphans) with 13%nat in E. lia.
  - intros t T. rewrite H by exact T. pose proof (plain_ge h t P) as N.
    destruct (Nat.eqb_spec t d) as [->|NE].
    + rewrite (proj2 (in_existsb d orphans) D). destruct (Z.leb_spec 1 (nth d h 0)), (Z.leb_spec 2 (nth d h 0)); cbn [negb b2z]; lia.
    + destruct (existsb (Nat.eqb t) orphans); [|lia]. destruct (Z.leb_spec 1 (nth t h 0)); cbn [negb b2z]; lia.
Qed.

Lemma orphans_both h : plain_hand h ->
  exists m, (forall d, In d orphans -> nth d h 0 <= m) /\ (exists d, In d orphans /\ nth d h 0 = m) /\
  (forall w, thirteen_orphans w -> 14 - Z.of_nat (length (present h)) - (if 2 <=? m then 1 else 0) <= missing h w) /\
  (exists w, physical w /\ thirteen_orphans w /\ missing h w = 14 - Z.of_nat (length (present h)) - (if 2 <=? m then 1 else 0)) /\
  py_max (yaochu_arr h) = m.
Proof.
  intros P. destruct (kokushi_max h P) as [(e & E & M) G]. exists (py_max (yaochu_arr h)). split; [exact G|]. split; [exists e; auto|]. split; [|split; [|reflexivity]].
  - intros w (d & D & H). rewrite (orphans_missing h d w P D H). specialize (G d D).
    destruct (Z.leb_spec 2 (nth d h 0)), (Z.leb_spec 2 (py_max (yaochu_arr h))); lia.
  - assert (H : thirteen_orphans (orphan_hand e)) by (exists e; split; [exact E|intros t T; now apply orphan_hand_at]).
    exists (orphan_hand e). split; [|split; [exact H|]].
    + intros t T. rewrite orphan_hand_at by exact T. destruct (existsb (Nat.eqb t) orphans), (Nat.eqb t e); lia.
    + rewrite (orphans_missing h e _ P E (orphan_hand_at e)), M. destruct (Z.leb_spec 2 (nth e h 0)), (Z.leb_spec 2 (py_max (yaochu_arr h))); lia.
Qed.
