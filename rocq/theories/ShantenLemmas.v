(** Soundness and completeness of the search for complete hands. *)
From Coq Require Import ZArith List Bool Lia Arith Permutation.
From Verif Require Import Base Constants VecLemmas Shanten SpecShanten ShantenSearch.
Import ListNotations.
Open Scope Z_scope.

Definition legal27 (m : mset) : Prop :=
  match m with Triplet i => (i < 27)%nat | Run i => (i < 27)%nat /\ (Nat.modulo i 9 <= 6)%nat end.

Definition two (ps : list nat) (t : nat) : Z := fold_right (fun p a => (if Nat.eqb t p then 2 else 0) + a) 0 ps.

(** Sum over the suit types *)
Definition S27 (f : nat -> Z) : Z := vsum (map f (seq 0 27)).

Lemma S27_add f g : S27 (fun t => f t + g t) = S27 f + S27 g.
Proof. unfold S27. apply vsum_map_add. Qed.
Lemma S27_ext f g : (forall t, (t < 27)%nat -> f t = g t) -> S27 f = S27 g.
Proof. intros H. apply vsum_ext. intros t T. apply in_seq in T. apply H. lia. Qed.
Lemma S27_nonneg f : (forall t, (t < 27)%nat -> 0 <= f t) -> 0 <= S27 f.
Proof.
  intros H. unfold S27. apply vsum_nonneg. apply Forall_forall. intros x X. apply in_map_iff in X.
  destruct X as (t & <- & T). apply in_seq in T. apply H. lia.
Qed.
Lemma S27_at i c : (i < 27)%nat -> S27 (fun t => if Nat.eqb t i then c else 0) = c.
Proof.
  intros H. unfold S27. do 27 (destruct i as [|i]; [cbn; lia|]). lia.
Qed.

Lemma run_fits i : (i < 27)%nat -> (Nat.modulo i 9 <= 6)%nat -> (i + 2 < 27)%nat.
Proof. intros I M. do 27 (destruct i as [|i]; [cbn in M; lia|]). lia. Qed.
Lemma run_fits1 i : (i < 27)%nat -> (Nat.modulo i 9 < 8)%nat -> (i + 1 < 27)%nat.
Proof. intros I M. do 27 (destruct i as [|i]; [cbn in M; lia|]). lia. Qed.

Lemma S27_uses m : legal27 m -> S27 (uses m) = 3.
Proof.
  destruct m as [i|i]; cbn [legal27 uses].
  - intros I. rewrite (S27_ext _ (fun t => if Nat.eqb t i then 3 else 0)) by reflexivity. now apply S27_at.
  - intros [I M]. pose proof (run_fits i I M) as F.
    rewrite (S27_ext _ (fun t => ((if Nat.eqb t i then 1 else 0) + (if Nat.eqb t (i + 1) then 1 else 0)) + (if Nat.eqb t (i + 2) then 1 else 0))).
    + rewrite !S27_add, !S27_at by lia. lia.
    + intros t T. cbn [uses]. destruct (Nat.leb_spec i t), (Nat.leb_spec t (i + 2)), (Nat.eqb_spec t i), (Nat.eqb_spec t (i + 1)), (Nat.eqb_spec t (i + 2)); cbn; lia.
Qed.

Lemma S27_uses_all l : Forall legal27 l -> S27 (uses_all l) = 3 * Z.of_nat (length l).
Proof.
  induction 1 as [|m l M _ IH]; [reflexivity|].
  unfold uses_all. cbn [fold_right]. fold (uses_all l).
  rewrite (S27_ext _ (fun t => uses m t + uses_all l t)) by reflexivity.
  rewrite S27_add, S27_uses, IH by exact M. cbn [length]. lia.
Qed.
Lemma S27_two l : Forall (fun p => (p < 27)%nat) l -> S27 (two l) = 2 * Z.of_nat (length l).
Proof.
  induction 1 as [|p l P _ IH]; [reflexivity|].
  rewrite (S27_ext _ (fun t => (if Nat.eqb t p then 2 else 0) + two l t)) by reflexivity.
  rewrite S27_add, S27_at, IH by exact P. cbn [length]. lia.
Qed.

(** ** Soundness *)

(** The path from [s] to [s'] cut sets, pairs and partial sets out of the hand. *)
Definition Dec (s s' : sv) : Prop :=
  exists sets pairs rest, Forall legal27 sets /\ Forall (fun p => (p < 27)%nat) pairs /\
    (forall t, (t < 27)%nat -> 0 <= rest t) /\
    (forall t, (t < 27)%nat -> vget (sv_hand s) t = uses_all sets t + two pairs t + rest t) /\
    sv_mentsu s' = sv_mentsu s + Z.of_nat (length sets) /\
    sv_toitsu s' = sv_toitsu s + Z.of_nat (length pairs) /\
    sv_taatsu s <= sv_taatsu s' /\ 2 * (sv_taatsu s' - sv_taatsu s) <= S27 rest.

Definition nonneg (s : sv) : Prop := forall t, (t < 27)%nat -> 0 <= vget (sv_hand s) t.

Ltac fields := cbn [sv_mentsu sv_taatsu sv_toitsu sv_hand add_shuntsu add_koutsu add_toitsu add_taatsu add_kuttsuki] in *.

Lemma hand_koutsu i s t : length (sv_hand s) = 37%nat -> (t < 27)%nat ->
  vget (sv_hand (add_koutsu i s)) t = vget (sv_hand s) t - (if Nat.eqb t i then 3 else 0).
Proof. intros L T. hv L. rewrite (Nat.eqb_sym i t). destruct (Nat.eqb t i); lia. Qed.
Lemma hand_toitsu i s t : length (sv_hand s) = 37%nat -> (t < 27)%nat ->
  vget (sv_hand (add_toitsu i s)) t = vget (sv_hand s) t - (if Nat.eqb t i then 2 else 0).
Proof. intros L T. hv L. rewrite (Nat.eqb_sym i t). destruct (Nat.eqb t i); lia. Qed.
Lemma hand_kuttsuki i b s t : length (sv_hand s) = 37%nat -> (t < 27)%nat ->
  vget (sv_hand (add_kuttsuki i b s)) t = vget (sv_hand s) t - (if Nat.eqb t i then 1 else 0).
Proof. intros L T. hv L. rewrite (Nat.eqb_sym i t). destruct (Nat.eqb t i); lia. Qed.
Lemma hand_run i s t : length (sv_hand s) = 37%nat -> (t < 27)%nat ->
  vget (sv_hand (add_shuntsu i s)) t = vget (sv_hand s) t - uses (Run i) t.
Proof.
  intros L T. hv L. cbn [uses].
  destruct (Nat.leb_spec i t), (Nat.leb_spec t (i + 2)), (Nat.eqb_spec i t), (Nat.eqb_spec (i + 1) t), (Nat.eqb_spec (i + 2) t); cbn; lia.
Qed.
Lemma hand_taatsu1 i s t : length (sv_hand s) = 37%nat -> (t < 27)%nat ->
  vget (sv_hand (add_taatsu i 1 s)) t = vget (sv_hand s) t - ((if Nat.eqb t i then 1 else 0) + (if Nat.eqb t (i + 2) then 1 else 0)).
Proof.
  intros L T. hv L.
  destruct (Nat.eqb_spec i t), (Nat.eqb_spec (i + 1) t), (Nat.eqb_spec (i + 2) t), (Nat.eqb_spec t i), (Nat.eqb_spec t (i + 2)); lia.
Qed.
Lemma hand_taatsu2 i s t : length (sv_hand s) = 37%nat -> (t < 27)%nat ->
  vget (sv_hand (add_taatsu i 2 s)) t = vget (sv_hand s) t - ((if Nat.eqb t i then 1 else 0) + (if Nat.eqb t (i + 1) then 1 else 0)).
Proof.
  intros L T. hv L.
  destruct (Nat.eqb_spec i t), (Nat.eqb_spec (i + 1) t), (Nat.eqb_spec (i + 2) t), (Nat.eqb_spec t i), (Nat.eqb_spec t (i + 1)); lia.
Qed.

Lemma dec_koutsu i s s' : length (sv_hand s) = 37%nat -> (i < 27)%nat -> Dec (add_koutsu i s) s' -> Dec s s'.
Proof.
  intros L I (sets & pairs & rest & A & B & C & D & M & P & T & V).
  exists (Triplet i :: sets), pairs, rest. fields. cbn [length].
  repeat split; auto; try lia.
  intros t H. specialize (D t H). pose proof (hand_koutsu i s t L H) as E. fields. rewrite D in E.
  unfold uses_all; cbn [fold_right uses]. fold (uses_all sets t). lia.
Qed.
Lemma dec_toitsu i s s' : length (sv_hand s) = 37%nat -> (i < 27)%nat -> Dec (add_toitsu i s) s' -> Dec s s'.
Proof.
  intros L I (sets & pairs & rest & A & B & C & D & M & P & T & V).
  exists sets, (i :: pairs), rest. fields. cbn [length].
  repeat split; auto; try lia.
  intros t H. specialize (D t H). pose proof (hand_toitsu i s t L H) as E. fields. rewrite D in E.
  unfold two; cbn [fold_right]. fold (two pairs t). lia.
Qed.
Lemma dec_shuntsu i s s' : length (sv_hand s) = 37%nat -> (i < 27)%nat -> (Nat.modulo i 9 <= 6)%nat ->
  Dec (add_shuntsu i s) s' -> Dec s s'.
Proof.
  intros L I I6 (sets & pairs & rest & A & B & C & D & M & P & T & V).
  exists (Run i :: sets), pairs, rest. fields. cbn [length].
  repeat split; auto; try lia.
  - constructor; [split; assumption|exact A].
  - intros t H. specialize (D t H). pose proof (hand_run i s t L H) as E. fields. rewrite D in E.
    unfold uses_all; cbn [fold_right]. fold (uses_all sets t). lia.
Qed.
Lemma dec_rest i j d s c s' : (i < 27)%nat -> (j < 27)%nat ->
  (forall t, (t < 27)%nat -> vget (sv_hand c) t = vget (sv_hand s) t - ((if Nat.eqb t i then 1 else 0) + (if Nat.eqb t j then 1 else 0))) ->
  sv_mentsu c = sv_mentsu s -> sv_toitsu c = sv_toitsu s -> sv_taatsu c = sv_taatsu s + d -> 0 <= d <= 1 ->
  Dec c s' -> Dec s s'.
Proof.
  intros I J H Em Et Ea Hd (sets & pairs & rest & A & B & C & D & M & P & T & V).
  exists sets, pairs, (fun t => rest t + ((if Nat.eqb t i then 1 else 0) + (if Nat.eqb t j then 1 else 0))).
  repeat split; auto; try lia.
  - intros t Q. specialize (C t Q). destruct (Nat.eqb t i), (Nat.eqb t j); lia.
  - intros t Q. specialize (H t Q). specialize (D t Q). lia.
  - rewrite !S27_add, !S27_at by assumption. lia.
Qed.
Lemma dec_kuttsuki i b s s' : length (sv_hand s) = 37%nat -> (i < 27)%nat -> Dec (add_kuttsuki i b s) s' -> Dec s s'.
Proof.
  intros L I (sets & pairs & rest & A & B & C & D & M & P & T & V).
  exists sets, pairs, (fun t => rest t + (if Nat.eqb t i then 1 else 0)). fields.
  repeat split; auto; try lia.
  - intros t Q. specialize (C t Q). destruct (Nat.eqb t i); lia.
  - intros t H. specialize (D t H). pose proof (hand_kuttsuki i b s t L H) as E. fields. rewrite D in E. lia.
  - rewrite !S27_add, !S27_at by assumption. lia.
Qed.

Lemma truthy_pos x : 0 <= x -> truthy x = true -> 1 <= x.
Proof. unfold truthy. intros. destruct (Z.eqb_spec x 0); cbn in *; [discriminate|lia]. Qed.

Lemma dec_ps i tune s c : length (sv_hand s) = 37%nat -> nonneg s -> (i < 27)%nat -> 1 <= vget (sv_hand s) i ->
  In c (ps_branches i tune s) -> nonneg c /\ forall s', Dec c s' -> Dec s s'.
Proof.
  intros L N I G H. unfold ps_branches in H. apply in_app_or in H. destruct H as [H|H].
  { destruct (Nat.ltb (Nat.modulo i 9) 7 && truthy (vget (sv_hand s) (i + 2))) eqn:E; [|destruct H].
    apply andb_prop in E. destruct E as [E7 E2]. apply Nat.ltb_lt in E7.
    pose proof (run_fits i I ltac:(lia)) as F. apply truthy_pos in E2; [|apply N; lia].
    apply in_app_or in H. destruct H as [H|[<-|[]]].
    - destruct (truthy (vget (sv_hand s) (i + 1))) eqn:E1; [|destruct H]. destruct H as [<-|[]].
      apply truthy_pos in E1; [|apply N; lia]. split.
      + intros t T. rewrite hand_run by assumption. specialize (N t T). cbn [uses].
        destruct (Nat.leb_spec i t), (Nat.leb_spec t (i + 2)); cbn; try lia.
        assert (t = i \/ t = i + 1 \/ t = i + 2)%nat as [->|[->| ->]] by lia; lia.
      + intros s'. apply dec_shuntsu; try assumption. lia.
    - split.
      + intros t T. rewrite hand_taatsu1 by assumption. specialize (N t T).
        destruct (Nat.eqb_spec t i), (Nat.eqb_spec t (i + 2)); subst; lia.
      + intros s'. apply (dec_rest i (i + 2) 1); try assumption; try lia; try reflexivity.
        intros t T. now apply hand_taatsu1. }
  apply in_app_or in H. destruct H as [H|[<-|[]]].
  { destruct (Nat.ltb (Nat.modulo i 9) 8 && truthy (vget (sv_hand s) (i + 1))) eqn:E; [|destruct H].
    destruct H as [<-|[]]. apply andb_prop in E. destruct E as [E7 E2]. apply Nat.ltb_lt in E7.
    pose proof (run_fits1 i I E7) as F. apply truthy_pos in E2; [|apply N; lia]. split.
    + intros t T. rewrite hand_taatsu2 by assumption. specialize (N t T).
      destruct (Nat.eqb_spec t i), (Nat.eqb_spec t (i + 1)); subst; lia.
    + intros s'. apply (dec_rest i (i + 1) 1); try assumption; try lia; try reflexivity.
      intros t T. now apply hand_taatsu2. }
  split.
  - intros t T. rewrite hand_kuttsuki by assumption. specialize (N t T). destruct (Nat.eqb_spec t i) as [->|]; lia.
  - intros s'. now apply dec_kuttsuki.
Qed.

Lemma nonneg_koutsu i s : length (sv_hand s) = 37%nat -> nonneg s -> (i < 27)%nat -> 3 <= vget (sv_hand s) i -> nonneg (add_koutsu i s).
Proof. intros L N I G t T. rewrite hand_koutsu by assumption. specialize (N t T). destruct (Nat.eqb_spec t i) as [->|]; lia. Qed.
Lemma nonneg_toitsu i s : length (sv_hand s) = 37%nat -> nonneg s -> (i < 27)%nat -> 2 <= vget (sv_hand s) i -> nonneg (add_toitsu i s).
Proof. intros L N I G t T. rewrite hand_toitsu by assumption. specialize (N t T). destruct (Nat.eqb_spec t i) as [->|]; lia. Qed.

Lemma dec_branch i s j c : length (sv_hand s) = 37%nat -> nonneg s -> (i < 27)%nat ->
  In (j, c) (branches i s) -> nonneg c /\ forall s', Dec c s' -> Dec s s'.
Proof.
  intros L N I H. unfold branches in H.
  assert (Q : forall t x, In (j, c) (map (pair i) (ps_branches i t x)) -> In c (ps_branches i t x)).
  { intros t x K. apply in_map_iff in K. destruct K as (y & E & K). injection E as <- <-. auto. }
  destruct (koutsu_hand i s L I) as [LK VK]. destruct (toitsu_hand i s L I) as [LT VT].
  destruct (Z.eqb_spec (vget (sv_hand s) i) 4) as [E|_].
  { apply in_app_or in H. destruct H as [H|[H|H]].
    - apply Q in H. destruct (dec_ps _ _ _ _ LK (nonneg_koutsu i s L N I ltac:(lia)) I ltac:(lia) H) as [A B].
      split; [exact A|]. intros s' D. apply (dec_koutsu i); auto.
    - injection H as <- <-. split; [apply nonneg_koutsu; auto; lia|]. intros s'. now apply dec_koutsu.
    - apply Q in H. destruct (dec_ps _ _ _ _ LT (nonneg_toitsu i s L N I ltac:(lia)) I ltac:(lia) H) as [A B].
      split; [exact A|]. intros s' D. apply (dec_toitsu i); auto. }
  destruct (Z.eqb_spec (vget (sv_hand s) i) 3) as [E|_].
  { destruct H as [H|[H|[]]]; injection H as <- <-.
    - split; [apply nonneg_koutsu; auto; lia|]. intros s'. now apply dec_koutsu.
    - split; [apply nonneg_toitsu; auto; lia|]. intros s'. now apply dec_toitsu. }
  destruct (Z.eqb_spec (vget (sv_hand s) i) 2) as [E|_].
  { destruct H as [H|H].
    - injection H as <- <-. split; [apply nonneg_toitsu; auto; lia|]. intros s'. now apply dec_toitsu.
    - apply Q in H. apply (dec_ps _ _ _ _ L N I ltac:(lia) H). }
  destruct (Z.eqb_spec (vget (sv_hand s) i) 1) as [E|_]; [|destruct H].
  apply Q in H. apply (dec_ps _ _ _ _ L N I ltac:(lia) H).
Qed.

Lemma reach_dec idx s s' : Reach idx s s' -> length (sv_hand s) = 37%nat -> nonneg s -> Dec s s'.
Proof.
  induction 1 as [idx s I Z0|idx i s j c s' I Z0 NZ B R IH]; intros L N.
  - exists [], [], (vget (sv_hand s)). cbn [length]. repeat split; auto; try lia.
    rewrite Z.sub_diag. apply S27_nonneg. exact N.
  - destruct (dec_branch i s j c L N ltac:(lia) B) as [A D]. apply D. apply IH; [|exact A].
    apply (branch_smaller i s j c L ltac:(lia) B).
Qed.

(** ** Completeness *)

Definition Exact (f : nat -> Z) (sets : list mset) (pairs : list nat) : Prop :=
  Forall legal27 sets /\ (pairs = [] \/ exists p, (p < 27)%nat /\ pairs = [p]) /\
  forall t, (t < 27)%nat -> f t = uses_all sets t + two pairs t.

Lemma uses_nonneg m t : 0 <= uses m t.
Proof. destruct m as [i|i]; cbn; [destruct (Nat.eqb t i)|destruct (Nat.leb i t && Nat.leb t (i + 2))]; lia. Qed.
Lemma uses_all_nonneg l t : 0 <= uses_all l t.
Proof. induction l as [|m l IH]; [cbn; lia|]. unfold uses_all in *. cbn [fold_right]. pose proof (uses_nonneg m t). lia. Qed.
Lemma uses_all_cons m l t : uses_all (m :: l) t = uses m t + uses_all l t. Proof. reflexivity. Qed.
Lemma two_nonneg l t : 0 <= two l t.
Proof. induction l as [|m l IH]; [cbn; lia|]. unfold two in *. cbn [fold_right]. destruct (Nat.eqb t m); lia. Qed.
Lemma two_1 p t : two [p] t = if Nat.eqb t p then 2 else 0. Proof. unfold two. cbn. destruct (Nat.eqb t p); lia. Qed.

Lemma uses_all_perm l l' t : Permutation l l' -> uses_all l t = uses_all l' t.
Proof. unfold uses_all. induction 1; cbn [fold_right]; lia. Qed.

Lemma exact_perm f l l' ps : Permutation l l' -> Exact f l ps -> Exact f l' ps.
Proof.
  intros P (A & B & C). split; [|split; [exact B|]].
  - apply Forall_forall. intros m M. apply (proj1 (Forall_forall _ _) A). eapply Permutation_in; [apply Permutation_sym; exact P|exact M].
  - intros t T. rewrite (C t T), (uses_all_perm _ _ t P). reflexivity.
Qed.

Lemma exact_ext f g l ps : (forall t, (t < 27)%nat -> f t = g t) -> Exact f l ps -> Exact g l ps.
Proof. intros H (A & B & C). split; [exact A|]. split; [exact B|]. intros t T. rewrite <- H by exact T. auto. Qed.

Lemma exact_drop f m l ps : Exact f (m :: l) ps -> Exact (fun t => f t - uses m t) l ps.
Proof.
  intros (A & B & C). split; [now inversion A|]. split; [exact B|].
  intros t T. rewrite (C t T), uses_all_cons. lia.
Qed.

Lemma exact_drop_pair f i l : Exact f l [i] -> Exact (fun t => f t - (if Nat.eqb t i then 2 else 0)) l [].
Proof.
  intros (A & B & C). split; [exact A|]. split; [now left|].
  intros t T. rewrite (C t T), two_1. cbn. lia.
Qed.

Lemma exists_use l t : uses_all l t <> 0 -> exists m, In m l /\ uses m t <> 0.
Proof.
  induction l as [|m l IH]; [cbn; lia|]. rewrite uses_all_cons. intros H.
  destruct (Z.eq_dec (uses m t) 0) as [E|E].
  - destruct IH as (m' & A & B); [lia|]. exists m'. split; [now right|exact B].
  - exists m. split; [now left|exact E].
Qed.

(** The first non-empty type is the start of a run, a triplet, or the pair. *)
Lemma exact_split f i l ps : Exact f l ps -> (i < 27)%nat -> (forall t, (t < i)%nat -> f t = 0) -> 1 <= f i ->
  (exists r, Permutation l (Triplet i :: r) /\ Exact f (Triplet i :: r) ps) \/
  (exists r, Permutation l (Run i :: r) /\ Exact f (Run i :: r) ps) \/ ps = [i].
Proof.
  intros X I Z0 G. pose proof X as (A & B & C).
  destruct (Z.eq_dec (uses_all l i) 0) as [E|E].
  - right. right. specialize (C i I). destruct B as [->|(p & P & ->)]; [cbn in C; lia|].
    rewrite two_1 in C. destruct (Nat.eqb_spec i p) as [->|]; [reflexivity|lia].
  - destruct (exists_use l i E) as (m & M & U).
    destruct (in_split _ _ M) as (l1 & l2 & EQ).
    assert (PM : Permutation l (m :: l1 ++ l2)) by (subst l; symmetry; apply Permutation_middle).
    pose proof (exact_perm _ _ _ _ PM X) as X'.
    destruct m as [k|k]; cbn [uses] in U.
    + destruct (Nat.eqb_spec i k) as [->|]; [|lia]. left. exists (l1 ++ l2). auto.
    + destruct (Nat.leb_spec k i) as [K1|]; [|cbn in U; lia].
      destruct (Nat.eq_dec k i) as [->|NE]; [right; left; exists (l1 ++ l2); auto|exfalso].
      destruct X' as (_ & _ & C'). specialize (C' k ltac:(lia)). rewrite Z0 in C' by lia.
      rewrite uses_all_cons in C'. pose proof (uses_all_nonneg (l1 ++ l2) k). pose proof (two_nonneg ps k).
      cbn [uses] in C'. rewrite Nat.leb_refl, (proj2 (Nat.leb_le k (k + 2))) in C' by lia. cbn [andb] in C'. lia.
Qed.

Lemma exact_zero f l ps : Exact f l ps -> (forall t, (t < 27)%nat -> f t = 0) -> l = [] /\ ps = [].
Proof.
  intros (A & B & C) H. split.
  - destruct l as [|m l]; [reflexivity|exfalso]. inversion A as [|? ? A1 A2]; subst.
    assert (exists t, (t < 27)%nat /\ 1 <= uses m t) as (t & T & U).
    { destruct m as [i|i]; cbn [legal27 uses] in *.
      - exists i. rewrite Nat.eqb_refl. split; [exact A1|lia].
      - exists i. rewrite Nat.leb_refl, (proj2 (Nat.leb_le i (i + 2))) by lia. cbn. split; [apply A1|lia]. }
    specialize (C t T). rewrite H, uses_all_cons in C by exact T.
    pose proof (uses_all_nonneg l t). pose proof (two_nonneg ps t). lia.
  - destruct B as [B|(p & P & ->)]; [exact B|exfalso]. specialize (C p P). rewrite H, two_1, Nat.eqb_refl in C by exact P.
    pose proof (uses_all_nonneg l p). lia.
Qed.

Lemma runs3 i r t : uses_all (Run i :: Run i :: Run i :: r) t = uses_all (Triplet i :: Triplet (i + 1) :: Triplet (i + 2) :: r) t.
Proof.
  rewrite !uses_all_cons. cbn [uses].
  destruct (Nat.leb_spec i t), (Nat.leb_spec t (i + 2)), (Nat.eqb_spec t i), (Nat.eqb_spec t (i + 1)), (Nat.eqb_spec t (i + 2)); cbn [andb]; lia.
Qed.

Lemma exact_runs3 f i r ps : Exact f (Run i :: Run i :: Run i :: r) ps ->
  Exact f (Triplet i :: Triplet (i + 1) :: Triplet (i + 2) :: r) ps.
Proof.
  intros (A & B & C). split; [|split; [exact B|]].
  - pose proof (Forall_inv A) as A1. destruct A1 as [A1 A2].
    pose proof (Forall_inv_tail (Forall_inv_tail (Forall_inv_tail A))) as A5.
    pose proof (run_fits i A1 A2). do 3 (constructor; [cbn [legal27]; lia|]). exact A5.
  - intros t T. rewrite (C t T), runs3. reflexivity.
Qed.

Lemma in_ps_shuntsu i tune s : (Nat.modulo i 9 <= 6)%nat -> vget (sv_hand s) (i + 1) <> 0 -> vget (sv_hand s) (i + 2) <> 0 ->
  In (add_shuntsu i s) (ps_branches i tune s).
Proof.
  intros M A B. unfold ps_branches. apply in_or_app. left. unfold truthy.
  rewrite (proj2 (Nat.ltb_lt _ _)) by lia.
  rewrite (proj2 (Z.eqb_neq _ _) A), (proj2 (Z.eqb_neq _ _) B). left. reflexivity.
Qed.

Lemma exact_at_run f i r ps : Exact f (Run i :: r) ps -> (i < 27)%nat /\ (Nat.modulo i 9 <= 6)%nat /\
  1 <= f (i + 1)%nat /\ 1 <= f (i + 2)%nat.
Proof.
  intros (A & B & C). pose proof (Forall_inv A) as A1. destruct A1 as [A1 A2]. pose proof (run_fits i A1 A2).
  split; [exact A1|]. split; [exact A2|].
  assert (U : forall k, (i <= k <= i + 2)%nat -> 1 <= f k).
  { intros k K. rewrite C by lia. rewrite uses_all_cons. pose proof (uses_all_nonneg r k). pose proof (two_nonneg ps k).
    cbn [uses]. rewrite (proj2 (Nat.leb_le i k)), (proj2 (Nat.leb_le k (i + 2))) by lia. cbn [andb]. lia. }
  split; apply U; lia.
Qed.

Definition small (s : sv) : Prop := forall t, (t < 27)%nat -> 0 <= vget (sv_hand s) t <= 4.

Definition reaches (idx : nat) (s : sv) (m p : Z) : Prop :=
  exists s', Reach idx s s' /\ sv_mentsu s' = m /\ sv_toitsu s' = p /\ sv_taatsu s' = sv_taatsu s.

Lemma exact_small s l ps : Exact (vget (sv_hand s)) l ps -> forall t, (t < 27)%nat -> 0 <= vget (sv_hand s) t.
Proof. intros (A & B & C) t T. rewrite C by exact T. pose proof (uses_all_nonneg l t). pose proof (two_nonneg ps t). lia. Qed.

Section Step.
  Variable n : nat.
  Hypothesis IH : forall idx s l ps, (mu idx (sv_hand s) < n)%nat -> length (sv_hand s) = 37%nat -> (idx <= 27)%nat ->
    (forall t, (t < 27)%nat -> vget (sv_hand s) t <= 4) -> Exact (vget (sv_hand s)) l ps ->
    (forall t, (t < idx)%nat -> vget (sv_hand s) t = 0) ->
    reaches idx s (sv_mentsu s + Z.of_nat (length l)) (sv_toitsu s + Z.of_nat (length ps)).
  Variables (idx i : nat) (s : sv).
  Hypothesis L : length (sv_hand s) = 37%nat.
  Hypothesis I : (idx <= i < 27)%nat.
  Hypothesis Z0 : forall t, (t < i)%nat -> vget (sv_hand s) t = 0.
  Hypothesis NZ : vget (sv_hand s) i <> 0.
  Hypothesis M : (mu idx (sv_hand s) < S n)%nat.
  Hypothesis MI : (mu i (sv_hand s) <= mu idx (sv_hand s))%nat.
  Hypothesis H4 : forall t, (t < 27)%nat -> vget (sv_hand s) t <= 4.

  Lemma take j c l ps m p : In (j, c) (branches i s) ->
    (forall t, (t < 27)%nat -> vget (sv_hand c) t <= vget (sv_hand s) t) ->
    Exact (vget (sv_hand c)) l ps -> (forall t, (t < j)%nat -> vget (sv_hand c) t = 0) ->
    m = sv_mentsu c + Z.of_nat (length l) -> p = sv_toitsu c + Z.of_nat (length ps) ->
    sv_taatsu c = sv_taatsu s -> reaches idx s m p.
  Proof.
    intros B Le X Zj -> -> Et. destruct (branch_smaller i s j c L (proj2 I) B) as (Lc & J & Mu).
    destruct (IH j c l ps) as (s' & R & A1 & A2 & A3); try assumption; try lia.
    - intros t T. specialize (Le t T). specialize (H4 t T). lia.
    - exists s'. split; [|split; [exact A1|split; [exact A2|congruence]]].
      eapply Reach_step; [exact I| |exact NZ|exact B|exact R]. intros k K. apply Z0. lia.
  Qed.
End Step.

Lemma complete n : forall idx s l ps, (mu idx (sv_hand s) < n)%nat -> length (sv_hand s) = 37%nat -> (idx <= 27)%nat ->
  (forall t, (t < 27)%nat -> vget (sv_hand s) t <= 4) -> Exact (vget (sv_hand s)) l ps ->
  (forall t, (t < idx)%nat -> vget (sv_hand s) t = 0) ->
  reaches idx s (sv_mentsu s + Z.of_nat (length l)) (sv_toitsu s + Z.of_nat (length ps)).
Proof.
  induction n as [|n IH]; intros idx s l ps M L I H4 X Zi; [lia|].
  pose proof (skip_mu idx (sv_hand s) I) as SM.
  pose proof (skip_spec (27 - idx) (sv_hand s) idx) as SK. cbn zeta in SK.
  destruct SK as (Si & Sz & Sn).
  set (i := skip (27 - idx) (sv_hand s) idx) in *. clearbody i.
  destruct (Nat.eq_dec i 27) as [E|NE].
  { subst i. destruct (exact_zero _ _ _ X) as [-> ->].
    { intros t T. destruct (Nat.lt_ge_cases t idx); [now apply Zi|]. apply Sz. lia. }
    exists s. split; [|cbn; lia]. constructor; [exact I|]. intros k K. apply Sz. exact K. }
  assert (I' : (i < 27)%nat) by lia.
  assert (Z0 : forall t, (t < i)%nat -> vget (sv_hand s) t = 0).
  { intros t T. destruct (Nat.lt_ge_cases t idx); [now apply Zi|]. apply Sz. lia. }
  assert (NZ : vget (sv_hand s) i <> 0) by (apply Sn; lia).
  assert (G : 1 <= vget (sv_hand s) i) by (pose proof (exact_small s l ps X i I'); lia).
  pose proof (H4 i I') as G4.
  pose proof (take n IH idx i s L ltac:(lia) Z0 NZ M SM H4) as TK. clear IH.
  destruct (koutsu_hand i s L I') as [LK VK]. destruct (toitsu_hand i s L I') as [LT VT].
  (* the four moves used *)
  assert (K1 : forall r ps, vget (sv_hand s) i = 3 -> Exact (vget (sv_hand s)) (Triplet i :: r) ps ->
    reaches idx s (sv_mentsu s + Z.of_nat (S (length r))) (sv_toitsu s + Z.of_nat (length ps))).
  { intros r q E Y. apply (TK (S i) (add_koutsu i s) r q).
    - unfold branches. rewrite E. cbn. now left.
    - intros t T. rewrite hand_koutsu by assumption. destruct (Nat.eqb t i); lia.
    - eapply exact_ext; [|apply (exact_drop _ _ _ _ Y)]. intros t T. cbv beta. rewrite hand_koutsu by assumption. reflexivity.
    - intros t T. rewrite hand_koutsu by (assumption || lia). destruct (Nat.eqb_spec t i) as [->|]; [lia|]. rewrite Z0; lia.
    - fields. lia.
    - fields. lia.
    - reflexivity. }
  assert (K2 : forall r ps, vget (sv_hand s) i = 4 -> Exact (vget (sv_hand s)) (Triplet i :: Run i :: r) ps ->
    reaches idx s (sv_mentsu s + Z.of_nat (S (S (length r)))) (sv_toitsu s + Z.of_nat (length ps))).
  { intros r q E Y. pose proof (exact_drop _ _ _ _ Y) as Y1.
    destruct (exact_at_run _ _ _ _ Y1) as (_ & R6 & R1 & R2). cbv beta in R1, R2.
    pose proof (run_fits i I' R6) as F.
    apply (TK i (add_shuntsu i (add_koutsu i s)) r q).
    - unfold branches. rewrite E. cbn [Z.eqb Pos.eqb]. apply in_or_app. left. apply in_map. apply in_ps_shuntsu; [exact R6| |].
      + rewrite hand_koutsu by (assumption || lia). cbn [uses] in R1. lia.
      + rewrite hand_koutsu by (assumption || lia). cbn [uses] in R2. lia.
    - intros t T. rewrite hand_run, hand_koutsu by assumption. pose proof (uses_nonneg (Run i) t). destruct (Nat.eqb t i); lia.
    - eapply exact_ext; [|apply (exact_drop _ _ _ _ Y1)]. intros t T. cbv beta. rewrite hand_run, hand_koutsu by assumption. reflexivity.
    - intros t T. rewrite hand_run, hand_koutsu by (assumption || lia). rewrite Z0 by exact T. cbn [uses].
      rewrite (proj2 (Nat.leb_gt i t)) by lia. rewrite (proj2 (Nat.eqb_neq t i)) by lia. reflexivity.
    - fields. lia.
    - fields. lia.
    - reflexivity. }
  assert (K3 : forall l, 2 <= vget (sv_hand s) i <= 3 -> Exact (vget (sv_hand s)) l [i] ->
    reaches idx s (sv_mentsu s + Z.of_nat (length l)) (sv_toitsu s + 1)).
  { intros r E Y. pose proof (exact_drop_pair _ _ _ Y) as Y1.
    apply (TK (if vget (sv_hand s) i =? 2 then S i else i) (add_toitsu i s) r []).
    - unfold branches. assert (vget (sv_hand s) i = 2 \/ vget (sv_hand s) i = 3) as [Q|Q] by lia; rewrite Q; cbn; auto.
    - intros t T. rewrite hand_toitsu by assumption. destruct (Nat.eqb t i); lia.
    - eapply exact_ext; [|apply Y1]. intros t T. cbv beta. rewrite hand_toitsu by assumption. reflexivity.
    - intros t T. destruct (Z.eqb_spec (vget (sv_hand s) i) 2) as [Q|Q];
        rewrite hand_toitsu by (assumption || lia); destruct (Nat.eqb_spec t i) as [->|]; try lia; rewrite Z0; lia.
    - fields. lia.
    - fields. cbn [length]. lia.
    - reflexivity. }
  assert (K4 : forall r, vget (sv_hand s) i = 4 -> Exact (vget (sv_hand s)) (Run i :: r) [i] ->
    reaches idx s (sv_mentsu s + Z.of_nat (S (length r))) (sv_toitsu s + 1)).
  { intros r E Y. pose proof (exact_drop_pair _ _ _ Y) as Y1.
    destruct (exact_at_run _ _ _ _ Y1) as (_ & R6 & R1 & R2). cbv beta in R1, R2.
    pose proof (run_fits i I' R6) as F.
    apply (TK i (add_shuntsu i (add_toitsu i s)) r []).
    - unfold branches. rewrite E. cbn [Z.eqb Pos.eqb]. apply in_or_app. right. right. apply in_map. apply in_ps_shuntsu; [exact R6| |].
      + rewrite hand_toitsu by (assumption || lia). lia.
      + rewrite hand_toitsu by (assumption || lia). lia.
    - intros t T. rewrite hand_run, hand_toitsu by assumption. pose proof (uses_nonneg (Run i) t). destruct (Nat.eqb t i); lia.
    - eapply exact_ext; [|apply (exact_drop _ _ _ _ Y1)]. intros t T. cbv beta. rewrite hand_run, hand_toitsu by assumption. reflexivity.
    - intros t T. rewrite hand_run, hand_toitsu by (assumption || lia). rewrite Z0 by exact T. cbn [uses].
      rewrite (proj2 (Nat.leb_gt i t)) by lia. rewrite (proj2 (Nat.eqb_neq t i)) by lia. reflexivity.
    - fields. lia.
    - fields. cbn [length]. lia.
    - reflexivity. }
  assert (K5 : forall r ps, 1 <= vget (sv_hand s) i <= 2 -> Exact (vget (sv_hand s)) (Run i :: r) ps ->
    reaches idx s (sv_mentsu s + Z.of_nat (S (length r))) (sv_toitsu s + Z.of_nat (length ps))).
  { intros r q E Y.
    destruct (exact_at_run _ _ _ _ Y) as (_ & R6 & R1 & R2).
    pose proof (run_fits i I' R6) as F.
    apply (TK i (add_shuntsu i s) r q).
    - unfold branches. assert (vget (sv_hand s) i = 1 \/ vget (sv_hand s) i = 2) as [Q|Q] by lia; rewrite Q; cbn [Z.eqb Pos.eqb];
        [|right]; apply in_map; apply in_ps_shuntsu; (exact R6 || lia).
    - intros t T. rewrite hand_run by assumption. pose proof (uses_nonneg (Run i) t). lia.
    - eapply exact_ext; [|apply (exact_drop _ _ _ _ Y)]. intros t T. cbv beta. rewrite hand_run by assumption. reflexivity.
    - intros t T. rewrite hand_run by (assumption || lia). rewrite Z0 by exact T. cbn [uses].
      rewrite (proj2 (Nat.leb_gt i t)) by lia. reflexivity.
    - fields. lia.
    - fields. lia.
    - reflexivity. }
  clear TK.
  assert (RI : uses (Run i) i = 1).
  { cbn [uses]. rewrite Nat.leb_refl, (proj2 (Nat.leb_le i (i + 2))) by lia. reflexivity. }
  assert (TI : uses (Triplet i) i = 3) by (cbn [uses]; now rewrite Nat.eqb_refl).
  assert (RB : forall t, (t < i)%nat -> uses (Run i) t = 0).
  { intros t T. cbn [uses]. now rewrite (proj2 (Nat.leb_gt i t)) by lia. }
  assert (X0 := X).
  destruct (exact_split _ i _ _ X I' Z0 G) as [(r & Pm & Y)|[(r & Pm & Y)|EP]].
  - (* triplet *)
    rewrite (Permutation_length Pm). cbn [length].
    assert (3 <= vget (sv_hand s) i).
    { destruct Y as (_ & _ & C). rewrite (C i I'), uses_all_cons, TI. pose proof (uses_all_nonneg r i). pose proof (two_nonneg ps i). lia. }
    assert (vget (sv_hand s) i = 3 \/ vget (sv_hand s) i = 4) as [E|E] by lia; [now apply K1|].
    destruct (exact_split _ i _ _ (exact_drop _ _ _ _ Y) I') as [(r' & Pm' & Y')|[(r' & Pm' & Y')|EP]].
    + intros t T. rewrite Z0 by exact T. cbn [uses]. now rewrite (proj2 (Nat.eqb_neq t i)) by lia.
    + rewrite TI. lia.
    + exfalso. destruct Y' as (_ & _ & C). specialize (C i I'). rewrite uses_all_cons, TI in C. pose proof (uses_all_nonneg r' i). pose proof (two_nonneg ps i). lia.
    + rewrite (Permutation_length Pm'). cbn [length]. apply K2; [exact E|].
      eapply exact_perm; [|exact Y]. now constructor.
    + exfalso. destruct Y as (_ & _ & C). specialize (C i I'). rewrite EP, two_1, Nat.eqb_refl, uses_all_cons, TI in C. pose proof (uses_all_nonneg r i). lia.
  - (* run *)
    rewrite (Permutation_length Pm). cbn [length].
    destruct (Z.le_gt_cases (vget (sv_hand s) i) 2) as [Q|Q]; [now apply K5|].
    assert (Zr : forall t, (t < i)%nat -> vget (sv_hand s) t - uses (Run i) t = 0).
    { intros t T. rewrite Z0, RB by exact T. reflexivity. }
    destruct (exact_split _ i _ _ (exact_drop _ _ _ _ Y) I' Zr) as [(r' & Pm' & Y')|[(r' & Pm' & Y')|EP]]; [rewrite RI; lia| | |].
    + rewrite (Permutation_length Pm'). cbn [length].
      assert (vget (sv_hand s) i = 4).
      { destruct Y' as (_ & _ & C). specialize (C i I'). rewrite uses_all_cons, TI, RI in C. pose proof (uses_all_nonneg r' i). pose proof (two_nonneg ps i). lia. }
      apply K2; [assumption|]. eapply exact_perm; [|exact Y].
      eapply perm_trans; [|apply perm_swap]. now constructor.
    + rewrite (Permutation_length Pm'). cbn [length].
      assert (Y2 : Exact (vget (sv_hand s)) (Run i :: Run i :: r') ps) by (eapply exact_perm; [|exact Y]; now constructor).
      pose proof (exact_drop _ _ _ _ (exact_drop _ _ _ _ Y2)) as Y3. cbv beta in Y3.
      destruct (exact_split _ i _ _ Y3 I') as [(r2 & Pm2 & Y4)|[(r2 & Pm2 & Y4)|EP]].
      * intros t T. rewrite Z0, RB by exact T. reflexivity.
      * rewrite RI. lia.
      * exfalso. destruct Y4 as (_ & _ & C). specialize (C i I'). rewrite uses_all_cons, TI, RI in C. pose proof (uses_all_nonneg r2 i). pose proof (two_nonneg ps i). lia.
      * rewrite (Permutation_length Pm2). cbn [length].
        assert (Y5 : Exact (vget (sv_hand s)) (Run i :: Run i :: Run i :: r2) ps) by (eapply exact_perm; [|exact Y2]; now do 2 constructor).
        assert (vget (sv_hand s) i = 3 \/ vget (sv_hand s) i = 4) as [E|E] by lia.
        { apply exact_runs3 in Y5. apply (K1 _ _ E) in Y5. cbn [length] in Y5. exact Y5. }
        pose proof (exact_drop _ _ _ _ (exact_drop _ _ _ _ (exact_drop _ _ _ _ Y5))) as Y6. cbv beta in Y6.
        destruct (exact_split _ i _ _ Y6 I') as [(r3 & Pm3 & Y7)|[(r3 & Pm3 & Y7)|EP]].
        -- intros t T. rewrite Z0, RB by exact T. reflexivity.
        -- rewrite RI. lia.
        -- exfalso. destruct Y7 as (_ & _ & C). specialize (C i I'). rewrite uses_all_cons, TI, RI in C. pose proof (uses_all_nonneg r3 i). pose proof (two_nonneg ps i). lia.
        -- rewrite (Permutation_length Pm3). cbn [length].
           assert (Y8 : Exact (vget (sv_hand s)) (Run i :: Run i :: Run i :: Run i :: r3) ps) by (eapply exact_perm; [|exact Y5]; now do 3 constructor).
           apply exact_runs3 in Y8.
           assert (Y9 : Exact (vget (sv_hand s)) (Triplet i :: Run i :: Triplet (i + 1) :: Triplet (i + 2) :: r3) ps).
           { eapply exact_perm; [|exact Y8]. constructor.
             eapply perm_trans; [apply perm_skip; apply perm_swap|]. apply perm_swap. }
           apply (K2 _ _ E) in Y9. cbn [length] in Y9. exact Y9.
        -- exfalso. destruct Y6 as (_ & _ & C). specialize (C i I'). rewrite EP, two_1, Nat.eqb_refl, RI in C. pose proof (uses_all_nonneg r2 i). lia.
      * subst ps. cbn [length].
        destruct (Z.eq_dec (vget (sv_hand s) i) 4) as [E|E].
        { apply (K4 _ E) in Y2. cbn [length] in Y2. exact Y2. }
        apply K3 in Y2; [|lia]. cbn [length] in Y2. exact Y2.
    + subst ps. cbn [length].
      destruct (Z.eq_dec (vget (sv_hand s) i) 4) as [E|E].
      { apply (K4 _ E) in Y. exact Y. }
      apply K3 in Y; [|lia]. exact Y.
  - (* pair *)
    subst ps. cbn [length].
    assert (2 <= vget (sv_hand s) i).
    { destruct X as (_ & _ & C). rewrite (C i I'), two_1, Nat.eqb_refl. pose proof (uses_all_nonneg l i). lia. }
    destruct (Z.eq_dec (vget (sv_hand s) i) 4) as [E|E]; [|apply K3; [lia|exact X]].
    pose proof (exact_drop_pair _ _ _ X) as Y.
    destruct (exact_split _ i _ _ Y I') as [(r & Pm & Y')|[(r & Pm & Y')|EP]]; [| | | |discriminate].
    + intros t T. rewrite Z0 by exact T. now rewrite (proj2 (Nat.eqb_neq t i)) by lia.
    + rewrite Nat.eqb_refl. lia.
    + exfalso. destruct Y' as (_ & _ & C). specialize (C i I'). rewrite uses_all_cons, TI, Nat.eqb_refl in C. pose proof (uses_all_nonneg r i). pose proof (two_nonneg [] i). lia.
    + rewrite (Permutation_length Pm). cbn [length]. apply K4; [exact E|]. eapply exact_perm; [exact Pm|exact X0].
Qed.
