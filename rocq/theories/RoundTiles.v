(** Tile bookkeeping of the event loop: hands, owned tiles, unseen tiles. *)
From Coq Require Import ZArith List Bool String Ascii Lia PeanoNat Permutation.
From Verif Require Import Base Constants Naki Decision Tokens GameInfo Agari Process VecLemmas
  SpecMeld SpecTokens SpecRound RoundLemmas RoundInv.
Import ListNotations.
Open Scope Z_scope.

(** ** Counting *)
Lemma num_app k a b : num k (a ++ b) = num k a + num k b.
Proof. unfold num. rewrite filter_app, app_length. lia. Qed.
Lemma num_cons k x l : num k (x :: l) = num k [x] + num k l.
Proof. apply (num_app k [x] l). Qed.
Lemma num_nil k : num k [] = 0.
Proof. reflexivity. Qed.
Lemma num_perm k a b : Permutation a b -> num k a = num k b.
Proof.
  intros H. unfold num. f_equal. apply Permutation_length. induction H; cbn.
  - constructor.
  - destruct (in_class k x); auto.
  - destruct (in_class k x), (in_class k y); try reflexivity. constructor.
  - etransitivity; eassumption.
Qed.
Lemma num_nonneg k l : 0 <= num k l.
Proof. unfold num. lia. Qed.
Lemma num_one k x : num k [x] = if in_class k x then 1 else 0.
Proof. unfold num. cbn. destruct (in_class k x); reflexivity. Qed.

Definition tix_sweep : bool :=
  forallb (fun i => forallb (fun k => Nat.eqb (count_occ Nat.eq_dec (nth i TILE2IDX_list []) k)
                                             (if in_class k (Z.of_nat i) then 1 else 0)) (seq 0 37)) (seq 0 136).
Lemma tix_sweep_ok : tix_sweep = true.
Proof. vm_cast_no_check (eq_refl true). Qed.
Lemma tid_range t : 0 <= tid t < 136.
Proof. unfold tid. apply Z.mod_pos_bound. lia. Qed.
Lemma tid_id x : 0 <= x < 136 -> tid x = x.
Proof. intros H. unfold tid. now apply Z.mod_small. Qed.
Lemma tix_count t k : (k < 37)%nat -> Z.of_nat (count_occ Nat.eq_dec (tix t) k) = num k [tid t].
Proof.
  intros Hk. pose proof tix_sweep_ok as S. unfold tix_sweep in S. rewrite forallb_forall in S.
  pose proof (tid_range t) as R. specialize (S (Z.to_nat (tid t))). rewrite in_seq in S. specialize (S ltac:(lia)).
  rewrite forallb_forall in S. specialize (S k). rewrite in_seq in S. specialize (S ltac:(lia)).
  apply Nat.eqb_eq in S. unfold tix. rewrite S. rewrite Z2Nat.id by lia. rewrite num_one. destruct (in_class k (tid t)); reflexivity.
Qed.
Lemma vget_tix v t d k : (k < 37)%nat -> List.length v = 37%nat ->
  vget (vadds v (tix t) d) k = vget v k + d * num k [tid t].
Proof. intros Hk Hv. rewrite vget_vadds by lia. now rewrite tix_count. Qed.
Lemma vget_tixs l : forall v d k, (k < 37)%nat -> List.length v = 37%nat ->
  vget (vadds v (List.concat (map tix l)) d) k = vget v k + d * num k (map tid l).
Proof.
  induction l as [|t l IH]; intros v d k Hk Hv; cbn [map List.concat].
  - rewrite num_nil, Z.mul_0_r, Z.add_0_r. reflexivity.
  - rewrite vadds_app, IH by (rewrite ?length_vadds; assumption). rewrite vget_tix by assumption.
    rewrite (num_cons k (tid t) (map tid l)). ring.
Qed.
Lemma tix_hd t : hd 0%nat (tix t) = Z.to_nat (tid t / 4) /\ (Z.to_nat (tid t / 4) < 34)%nat.
Proof.
  pose proof (tid_range t) as R.
  assert (S : forallb (fun i => Nat.eqb (hd 0%nat (nth i TILE2IDX_list [])) (i / 4)) (seq 0 136) = true) by (vm_compute; reflexivity).
  rewrite forallb_forall in S. specialize (S (Z.to_nat (tid t))). rewrite in_seq in S. specialize (S ltac:(lia)).
  apply Nat.eqb_eq in S. unfold tix. rewrite S. rewrite Z2Nat.inj_div by lia. change (Z.to_nat 4) with 4%nat. split; [reflexivity|].
  apply Nat.div_lt_upper_bound; lia.
Qed.
Lemma vget_hd v t d k : (k < 37)%nat -> List.length v = 37%nat ->
  vget (vadd v (hd 0%nat (tix t)) d) k = vget v k + (if Nat.ltb k 34 then d * num k [tid t] else 0).
Proof.
  intros Hk Hv. rewrite vget_vadd by lia. destruct (tix_hd t) as [-> R]. f_equal. rewrite num_one. unfold in_class.
  pose proof (tid_range t). assert (0 <= tid t / 4) by (apply Z.div_pos; lia).
  destruct (Nat.ltb_spec k 34).
  - destruct (Nat.eqb_spec (Z.to_nat (tid t / 4)) k), (Z.eqb_spec (tid t / 4) (Z.of_nat k)); lia.
  - destruct (Nat.eqb_spec (Z.to_nat (tid t / 4)) k); [lia|reflexivity].
Qed.

(** ** Hands as sets of tiles *)
Definition holds (h : list Z) (hl : list Z) : Prop :=
  List.length h = 136%nat /\ NoDup hl /\ Forall (fun x => 0 <= x < 136) hl /\
  forall x, 0 <= x < 136 -> (In x hl -> vget h (Z.to_nat x) = 1) /\ (~ In x hl -> vget h (Z.to_nat x) = 0).

Lemma holds_in h hl x : holds h hl -> 0 <= x < 136 -> vget h (Z.to_nat x) = 1 -> In x hl.
Proof. intros (_ & _ & _ & H) R E. destruct (in_dec Z.eq_dec x hl) as [I|N]; [exact I|]. apply (H x R) in N. lia. Qed.
Lemma holds_notin h hl x : holds h hl -> 0 <= x < 136 -> vget h (Z.to_nat x) = 0 -> ~ In x hl.
Proof. intros (_ & _ & _ & H) R E I. apply (H x R) in I. lia. Qed.

Lemma holds_add h hl x : holds h hl -> 0 <= x < 136 -> ~ In x hl -> holds (vset h (Z.to_nat x) 1) (x :: hl).
Proof.
  intros (L & N & F & H) R Nx. split; [now rewrite length_vset|]. split; [now constructor|]. split; [now constructor|].
  intros y Ry. rewrite vget_vset by lia. split.
  - intros [->|I]; [now rewrite Nat.eqb_refl|]. destruct (Nat.eqb _ _); [reflexivity|]. now apply (H y Ry).
  - intros Ny. destruct (Nat.eqb_spec (Z.to_nat x) (Z.to_nat y)); [|apply (H y Ry); intros I; apply Ny; now right].
    exfalso. apply Ny. left. lia.
Qed.
Lemma holds_remove h h' hl x : holds h hl -> 0 <= x < 136 -> In x hl ->
  (List.length h' = 136%nat) -> (forall k, (k < 136)%nat -> vget h' k = if Nat.eqb (Z.to_nat x) k then 0 else vget h k) ->
  exists hl', Permutation hl (x :: hl') /\ holds h' hl'.
Proof.
  intros (L & N & F & H) R I L' Hh. apply in_split in I as (a & b & ->). exists (a ++ b).
  assert (P : Permutation (a ++ x :: b) (x :: a ++ b)) by (symmetry; apply Permutation_middle).
  split; [exact P|]. pose proof (NoDup_remove_1 _ _ _ N) as N1. pose proof (NoDup_remove_2 _ _ _ N) as N2.
  split; [exact L'|]. split; [exact N1|]. split.
  - apply Forall_app in F as [Fa Fb]. inversion Fb; subst. apply Forall_app. split; assumption.
  - intros y Ry. rewrite Hh by lia. destruct (Nat.eqb_spec (Z.to_nat x) (Z.to_nat y)) as [E|E].
    + assert (x = y) by lia. subst y. split; [intros I; contradiction|reflexivity].
    + assert (x <> y) by congruence. destruct (H y Ry) as [H1 H2]. split.
      * intros I. apply H1. apply in_or_app. apply in_app_or in I as [?|?]; [left|right; right]; assumption.
      * intros I. apply H2. intros J. apply I. apply in_or_app. apply in_app_or in J as [J|[J|J]]; [left; exact J|congruence|right; exact J].
Qed.
Lemma holds_discard h hl x : holds h hl -> 0 <= x < 136 -> vget h (Z.to_nat x) = 1 ->
  exists hl', Permutation hl (x :: hl') /\ holds (vset h (Z.to_nat x) 0) hl'.
Proof.
  intros H R E. pose proof (holds_in _ _ _ H R E) as I. eapply holds_remove; eauto.
  - rewrite length_vset. apply H.
  - intros k Hk. destruct H as (L & _). rewrite vget_vset by lia. reflexivity.
Qed.
Lemma holds_expose1 h hl x : holds h hl -> 0 <= x < 136 -> vget h (Z.to_nat x) = 1 ->
  exists hl', Permutation hl (x :: hl') /\ holds (vadd h (Z.to_nat x) (-1)) hl'.
Proof.
  intros H R E. pose proof (holds_in _ _ _ H R E) as I. eapply holds_remove; eauto.
  - rewrite length_vadd. apply H.
  - intros k Hk. destruct H as (L & _). rewrite vget_vadd by lia. destruct (Nat.eqb_spec (Z.to_nat x) k); subst; lia.
Qed.
Lemma holds_expose p ex : forall h hl, holds h hl -> exposable p h ex ->
  exists hl', Permutation hl (map tid ex ++ hl') /\ holds (vadds h (map tnat ex) (-1)) hl'.
Proof.
  induction ex as [|e ex IH]; intros h hl H E; cbn [map exposable] in *.
  - exists hl. split; [reflexivity|exact H].
  - destruct E as [E1 E2]. destruct (holds_expose1 h hl (tid e) H (tid_range e) E1) as (h1 & P1 & H1).
    destruct (IH _ _ H1 E2) as (h2 & P2 & H2). exists h2. split; [|exact H2].
    rewrite P1. cbn [app]. now constructor.
Qed.

(** ** The deal *)
Lemma deal_tile_spec l : forall ht pov rem r, List.length ht = 37%nat -> List.length pov = 37%nat -> List.length rem = 37%nat ->
  foldM deal_tile (ht, pov, rem) l = Ok r ->
  let '(ht', pov', rem') := r in
  List.length ht' = 37%nat /\ List.length pov' = 37%nat /\ List.length rem' = 37%nat /\
  forall k, (k < 37)%nat -> vget ht' k = vget ht k + num k (map tid l) /\ vget pov' k = vget pov k - num k (map tid l) /\
    vget rem' k = vget rem k - num k (map tid l).
Proof.
  induction l as [|t l IH]; intros ht pov rem r L1 L2 L3 H; cbn [foldM] in H.
  - injection H as <-. repeat split; try assumption; cbn [map]; rewrite num_nil; lia.
  - apply bind_ok in H as (s1 & E & H). unfold deal_tile in E. binv E. apply tile2idx_ok in E0. subst. injection E as <-.
    apply IH in H; [|now rewrite length_vadds..]. destruct r as [[ht' pov'] rem']. destruct H as (M1 & M2 & M3 & H).
    repeat split; try assumption; destruct (H k H0) as (H1 & H2 & H3); rewrite ?H1, ?H2, ?H3; rewrite vget_tix by assumption;
      cbn [map]; rewrite (num_cons k (tid t) (map tid l)); lia.
Qed.

Lemma deal_all_spec his : forall rem r, List.length rem = 37%nat -> deal_all his rem = Ok r ->
  let '(hts, povs, rem') := r in
  List.length hts = List.length his /\ List.length povs = List.length his /\
  Forall (fun v => List.length v = 37%nat) hts /\ Forall (fun v => List.length v = 37%nat) povs /\ List.length rem' = 37%nat /\
  forall k, (k < 37)%nat ->
    (forall p, (p < List.length his)%nat -> vget (row hts p) k = num k (map tid (nth p his [])) /\
         vget (row povs p) k = vget REMAINING_TILES k - num k (map tid (nth p his []))) /\
    vget rem' k = vget rem k - num k (List.concat (map (map tid) his)).
Proof.
  induction his as [|hi his IH]; intros rem r L H; cbn [deal_all] in H.
  - injection H as <-. cbn. repeat split; auto; try (intros; lia).
  - apply bind_ok in H as ([[ht pov] rem1] & E & H). apply bind_ok in H as ([[hts povs] rem2] & E2 & H). injection H as <-.
    apply deal_tile_spec in E as (M1 & M2 & M3 & E); [|reflexivity|reflexivity|exact L].
    apply IH in E2 as (N1 & N2 & N3 & N4 & N5 & E2); [|exact M3].
    cbn [List.length map List.concat]. split; [lia|]. split; [lia|]. split; [now constructor|]. split; [now constructor|]. split; [exact N5|].
    intros k Hk. destruct (E k Hk) as (A1 & A2 & A3). destruct (E2 k Hk) as (B1 & B2). split.
    + intros [|p] Hp.
      * unfold row. cbn [nth]. rewrite A1, A2. split; [|reflexivity]. unfold vget. rewrite nth_repeat. lia.
      * apply (B1 p). lia.
    + rewrite num_app. lia.
Qed.
