(** The search of ShantenSolver.solve_normal as a tree: what the state-passing code
    computes is the minimum of the leaf values, and the object is restored. *)
From Coq Require Import ZArith List Bool Lia Arith.
From Verif Require Import Base Constants VecLemmas Shanten.
Import ListNotations.
Open Scope Z_scope.

Definition ps_branches (i : nat) (tune : bool) (s : sv) : list sv :=
  (if Nat.ltb (Nat.modulo i 9) 7 && truthy (vget (sv_hand s) (i + 2)) then
     (if truthy (vget (sv_hand s) (i + 1)) then [add_shuntsu i s] else []) ++ [add_taatsu i 1 s]
   else []) ++
  (if Nat.ltb (Nat.modulo i 9) 8 && truthy (vget (sv_hand s) (i + 1)) then [add_taatsu i 2 s] else []) ++
  [add_kuttsuki i tune s].

Definition branches (i : nat) (s : sv) : list (nat * sv) :=
  let n := vget (sv_hand s) i in
  if n =? 4 then map (pair i) (ps_branches i true (add_koutsu i s)) ++ [(S i, add_koutsu i s)] ++
                 map (pair i) (ps_branches i false (add_toitsu i s))
  else if n =? 3 then [(S i, add_koutsu i s); (i, add_toitsu i s)]
  else if n =? 2 then (S i, add_toitsu i s) :: map (pair i) (ps_branches i false s)
  else if n =? 1 then map (pair i) (ps_branches i false s)
  else [].

Definition leaf_value (s : sv) : Z :=
  8 - 2 * sv_mentsu s - sv_taatsu s - sv_toitsu s +
  Z.max 0 (Z.max 0 (sv_toitsu s - 1) + sv_taatsu s + sv_mentsu s - 4) +
  (if truthy (sv_tune s) && negb (truthy (sv_toitsu s)) then 1 else 0).

Fixpoint pure (f : nat) (idx : nat) (s : sv) (b : Z) : Z :=
  match f with
  | O => b
  | S f' =>
      let i := skip (27 - idx) (sv_hand s) idx in
      if Nat.eqb i 27 then Z.min b (leaf_value s)
      else fold_left (fun b jc => pure f' (fst jc) (snd jc) b) (branches i s) b
  end.

Lemma set_best_best s b : sv_best (set_best s b) = b. Proof. reflexivity. Qed.
Lemma set_best_hand s b : sv_hand (set_best s b) = sv_hand s. Proof. reflexivity. Qed.
Lemma set_best_id s : set_best s (sv_best s) = s. Proof. destruct s; reflexivity. Qed.
Lemma set_best_set s a b : set_best (set_best s a) b = set_best s b. Proof. reflexivity. Qed.

Ltac vec := apply list_eq_vget; [now rewrite ?length_vadd, ?length_vadds, ?length_vadd, ?length_vadds|];
  intros k K; cbn [vadds fold_left] in *; rewrite ?length_vadd in K;
  repeat rewrite vget_vadd by (rewrite ?length_vadd; exact K);
  repeat match goal with |- context [if ?c then _ else _] => destruct c end; lia.

Lemma rem_shuntsu i s b : remove_shuntsu i (set_best (add_shuntsu i s) b) = set_best s b.
Proof.
  unfold remove_shuntsu, set_best, add_shuntsu; cbn [sv_hand sv_mentsu sv_taatsu sv_toitsu sv_kuttsuki sv_best sv_tune].
  f_equal; try lia. vec.
Qed.
Lemma rem_koutsu i s b : remove_koutsu i (set_best (add_koutsu i s) b) = set_best s b.
Proof.
  unfold remove_koutsu, set_best, add_koutsu; cbn [sv_hand sv_mentsu sv_taatsu sv_toitsu sv_kuttsuki sv_best sv_tune].
  f_equal; try lia. vec.
Qed.
Lemma rem_toitsu i s b : remove_toitsu i (set_best (add_toitsu i s) b) = set_best s b.
Proof.
  unfold remove_toitsu, set_best, add_toitsu; cbn [sv_hand sv_mentsu sv_taatsu sv_toitsu sv_kuttsuki sv_best sv_tune].
  f_equal; try lia. vec.
Qed.
Lemma rem_taatsu i w s b : remove_taatsu i w (set_best (add_taatsu i w s) b) = set_best s b.
Proof.
  unfold remove_taatsu, set_best, add_taatsu; cbn [sv_hand sv_mentsu sv_taatsu sv_toitsu sv_kuttsuki sv_best sv_tune].
  f_equal; try lia. vec.
Qed.
Lemma rem_kuttsuki i t s b : remove_kuttsuki i t (set_best (add_kuttsuki i t s) b) = set_best s b.
Proof.
  unfold remove_kuttsuki, set_best, add_kuttsuki; cbn [sv_hand sv_mentsu sv_taatsu sv_toitsu sv_kuttsuki sv_best sv_tune].
  f_equal; try lia. 2: destruct t; lia. vec.
Qed.

Lemma add_shuntsu_best i s b : add_shuntsu i (set_best s b) = set_best (add_shuntsu i s) b. Proof. reflexivity. Qed.
Lemma add_koutsu_best i s b : add_koutsu i (set_best s b) = set_best (add_koutsu i s) b. Proof. reflexivity. Qed.
Lemma add_toitsu_best i s b : add_toitsu i (set_best s b) = set_best (add_toitsu i s) b. Proof. reflexivity. Qed.
Lemma add_taatsu_best i w s b : add_taatsu i w (set_best s b) = set_best (add_taatsu i w s) b. Proof. reflexivity. Qed.
Lemma add_kuttsuki_best i t s b : add_kuttsuki i t (set_best s b) = set_best (add_kuttsuki i t s) b. Proof. reflexivity. Qed.

Lemma leaf_pure s b : sv_leaf (set_best s b) = set_best s (Z.min b (leaf_value s)).
Proof.
  unfold sv_leaf, leaf_value, set_best; cbn [sv_hand sv_mentsu sv_taatsu sv_toitsu sv_kuttsuki sv_best sv_tune].
  f_equal. destruct (truthy (sv_tune s) && negb (truthy (sv_toitsu s)));
    destruct (Z.ltb_spec 4 (Z.max 0 (sv_toitsu s - 1) + sv_taatsu s + sv_mentsu s)); lia.
Qed.

Lemma ps_pure rec p i tune s b :
  (forall c b, In c (ps_branches i tune s) -> rec i (set_best c b) = Some (set_best c (p i c b))) ->
  process_shuntsu rec i tune (set_best s b) = Some (set_best s (fold_left (fun b c => p i c b) (ps_branches i tune s) b)).
Proof.
  unfold process_shuntsu, ps_branches. intros R. rewrite !set_best_hand.
  destruct (Nat.ltb (Nat.modulo i 9) 7 && truthy (vget (sv_hand s) (i + 2))) eqn:E1;
  destruct (truthy (vget (sv_hand s) (i + 1))) eqn:E2; rewrite ?andb_false_r, ?andb_true_r in R;
  destruct (Nat.ltb (Nat.modulo i 9) 8); cbn [app andb] in *;
  repeat (rewrite ?add_shuntsu_best, ?add_taatsu_best, ?add_kuttsuki_best;
   rewrite ?R by (cbn [In]; tauto); cbn [obind];
   rewrite ?rem_shuntsu, ?rem_taatsu, ?rem_kuttsuki, ?set_best_hand, ?E2; cbn [obind andb]);
  reflexivity.
Qed.

Definition mu (idx : nat) (h : list Z) : nat := (5 * (27 - idx) + Z.to_nat (Z.min 4 (Z.max 0 (vget h idx))))%nat.

Lemma skip_spec n h idx : let i := skip n h idx in
  (idx <= i <= idx + n)%nat /\ (forall k, (idx <= k < i)%nat -> vget h k = 0) /\
  ((i < idx + n)%nat -> vget h i <> 0).
Proof.
  revert idx; induction n as [|n IH]; intros idx; cbn [skip].
  - split; [lia|]. split; [|lia]. intros k K. lia.
  - unfold truthy. destruct (Z.eqb_spec (vget h idx) 0) as [E|E]; cbn [negb].
    + specialize (IH (S idx)). cbn zeta in IH. destruct IH as (A & B & C).
      split; [lia|]. split.
      * intros k K. destruct (Nat.eq_dec k idx) as [->|N]; [exact E|]. apply B. lia.
      * intros K. apply C. lia.
    + split; [lia|]. split; [intros k K; lia|]. intros _; exact E.
Qed.

Lemma hand_shuntsu i s : sv_hand (add_shuntsu i s) = vadds (sv_hand s) [i; i + 1; i + 2]%nat (-1). Proof. reflexivity. Qed.

Ltac hv L := cbn [sv_hand add_shuntsu add_koutsu add_toitsu add_taatsu add_kuttsuki vadds fold_left] in *;
  repeat rewrite vget_vadd by (rewrite ?length_vadd, ?L; lia).

Ltac hl := cbn [sv_hand add_shuntsu add_koutsu add_toitsu add_taatsu add_kuttsuki]; rewrite ?length_vadd, ?length_vadds; assumption.

Lemma ps_hand i tune s c : length (sv_hand s) = 37%nat -> (i < 27)%nat -> In c (ps_branches i tune s) ->
  length (sv_hand c) = 37%nat /\ vget (sv_hand c) i = vget (sv_hand s) i - 1.
Proof.
  intros L I H. unfold ps_branches in H.
  apply in_app_or in H. destruct H as [H|H].
  { destruct (Nat.ltb (Nat.modulo i 9) 7 && truthy (vget (sv_hand s) (i + 2))); [|destruct H].
    apply in_app_or in H. destruct H as [H|[<-|[]]].
    { destruct (truthy (vget (sv_hand s) (i + 1))); [destruct H as [<-|[]]|destruct H].
      split; [hl|]. hv L.
      rewrite Nat.eqb_refl, (proj2 (Nat.eqb_neq (i + 1) i)), (proj2 (Nat.eqb_neq (i + 2) i)) by lia. lia. }
    split; [hl|]. hv L.
    rewrite Nat.eqb_refl, (proj2 (Nat.eqb_neq (i + 1) i)), (proj2 (Nat.eqb_neq (i + 2) i)) by lia. lia. }
  apply in_app_or in H. destruct H as [H|[<-|[]]].
  { destruct (Nat.ltb (Nat.modulo i 9) 8 && truthy (vget (sv_hand s) (i + 1))); [destruct H as [<-|[]]|destruct H].
    split; [hl|]. hv L.
    rewrite Nat.eqb_refl, (proj2 (Nat.eqb_neq (i + 1) i)), (proj2 (Nat.eqb_neq (i + 2) i)) by lia. lia. }
  split; [hl|]. hv L. rewrite Nat.eqb_refl. lia.
Qed.

Lemma koutsu_hand i s : length (sv_hand s) = 37%nat -> (i < 27)%nat ->
  length (sv_hand (add_koutsu i s)) = 37%nat /\ vget (sv_hand (add_koutsu i s)) i = vget (sv_hand s) i - 3.
Proof. intros L I. split; [hl|]. hv L. rewrite Nat.eqb_refl. lia. Qed.
Lemma toitsu_hand i s : length (sv_hand s) = 37%nat -> (i < 27)%nat ->
  length (sv_hand (add_toitsu i s)) = 37%nat /\ vget (sv_hand (add_toitsu i s)) i = vget (sv_hand s) i - 2.
Proof. intros L I. split; [hl|]. hv L. rewrite Nat.eqb_refl. lia. Qed.

(** Every recursive call is on a smaller problem. *)
Lemma branch_smaller i s j c : length (sv_hand s) = 37%nat -> (i < 27)%nat -> In (j, c) (branches i s) ->
  length (sv_hand c) = 37%nat /\ (i <= j <= 27)%nat /\ (mu j (sv_hand c) < mu i (sv_hand s))%nat.
Proof.
  intros L I H. unfold branches in H. unfold mu.
  destruct (koutsu_hand i s L I) as [LK VK]. destruct (toitsu_hand i s L I) as [LT VT].
  assert (N : forall t x, In (j, c) (map (pair i) (ps_branches i t x)) -> j = i /\ In c (ps_branches i t x)).
  { intros t x Q. apply in_map_iff in Q. destruct Q as (y & E & Q). injection E as <- <-. auto. }
  destruct (Z.eqb_spec (vget (sv_hand s) i) 4) as [E|_].
  { apply in_app_or in H. destruct H as [H|H].
    - apply N in H. destruct H as [-> H]. destruct (ps_hand _ _ _ _ LK I H) as [A B].
      split; [exact A|]. split; [lia|]. lia.
    - destruct H as [H|H].
      + injection H as <- <-. split; [exact LK|]. split; lia.
      + apply N in H. destruct H as [-> H]. destruct (ps_hand _ _ _ _ LT I H) as [A B].
        split; [exact A|]. split; [lia|]. lia. }
  destruct (Z.eqb_spec (vget (sv_hand s) i) 3) as [E|_].
  { destruct H as [H|[H|[]]]; injection H as <- <-; (split; [assumption|]; split; lia). }
  destruct (Z.eqb_spec (vget (sv_hand s) i) 2) as [E|_].
  { destruct H as [H|H].
    - injection H as <- <-. split; [exact LT|]. split; lia.
    - apply N in H. destruct H as [-> H]. destruct (ps_hand _ _ _ _ L I H) as [A B].
      split; [exact A|]. split; [lia|]. lia. }
  destruct (Z.eqb_spec (vget (sv_hand s) i) 1) as [E|_]; [|destruct H].
  apply N in H. destruct H as [-> H]. destruct (ps_hand _ _ _ _ L I H) as [A B].
  split; [exact A|]. split; [lia|]. lia.
Qed.

Lemma skip_mu idx h : (idx <= 27)%nat -> (mu (skip (27 - idx) h idx) h <= mu idx h)%nat.
Proof.
  intros I. pose proof (skip_spec (27 - idx) h idx) as S. cbn zeta in S. unfold mu.
  destruct (Nat.eq_dec (skip (27 - idx) h idx) idx) as [->|N]; [lia|]. lia.
Qed.

Lemma fold_left_map {A B C} (g : B -> C) (F : A -> C -> A) l a :
  fold_left F (map g l) a = fold_left (fun a x => F a (g x)) l a.
Proof. revert a; induction l as [|x l IH]; intros a; cbn; [reflexivity|]. apply IH. Qed.

Lemma solve_pure f : forall idx s b, length (sv_hand s) = 37%nat -> (idx <= 27)%nat ->
  (mu idx (sv_hand s) < f)%nat ->
  solve_normal f idx (set_best s b) = Some (set_best s (pure f idx s b)).
Proof.
  induction f as [|f IH]; intros idx s b L I M; [lia|].
  cbn [solve_normal pure]. rewrite !set_best_hand.
  pose proof (skip_mu idx (sv_hand s) I) as SM.
  pose proof (skip_spec (27 - idx) (sv_hand s) idx) as SK. cbn zeta in SK.
  destruct SK as (Si & _ & _).
  set (i := skip (27 - idx) (sv_hand s) idx) in *. clearbody i.
  destruct (Nat.eqb_spec i 27) as [E|NE]; [now rewrite leaf_pure|].
  assert (I' : (i < 27)%nat) by lia.
  assert (R : forall j c b, In (j, c) (branches i s) -> solve_normal f j (set_best c b) = Some (set_best c (pure f j c b))).
  { intros j c b' H. destruct (branch_smaller i s j c L I' H) as (A & B & C). apply IH; [exact A|lia|lia]. }
  clear IH. unfold branches in *.
  assert (P4 : forall t x, (forall c, In c (ps_branches i t x) -> In (i, c) (branches i s)) -> True) by auto.
  clear P4.
  destruct (vget (sv_hand s) i =? 4).
  { rewrite add_koutsu_best.
    rewrite (ps_pure _ (pure f)).
    2:{ intros c b' H. apply R. apply in_or_app. left. now apply in_map. }
    cbn [obind].
    rewrite R by (apply in_or_app; right; left; reflexivity).
    cbn [obind]. rewrite rem_koutsu, add_toitsu_best.
    rewrite (ps_pure _ (pure f)).
    2:{ intros c b' H. apply R. apply in_or_app. right. right. now apply in_map. }
    cbn [obind]. rewrite rem_toitsu.
    rewrite fold_left_app. cbn [app fold_left fst snd]. rewrite !fold_left_map. reflexivity. }
  destruct (vget (sv_hand s) i =? 3).
  { rewrite add_koutsu_best, R by (left; reflexivity). cbn [obind].
    rewrite rem_koutsu, add_toitsu_best, R by (right; left; reflexivity). cbn [obind].
    rewrite rem_toitsu. reflexivity. }
  destruct (vget (sv_hand s) i =? 2).
  { rewrite add_toitsu_best, R by (left; reflexivity). cbn [obind]. rewrite rem_toitsu.
    rewrite (ps_pure _ (pure f)).
    2:{ intros c b' H. apply R. right. now apply in_map. }
    cbn [fold_left fst snd]. rewrite fold_left_map. reflexivity. }
  destruct (vget (sv_hand s) i =? 1); [|reflexivity].
  rewrite (ps_pure _ (pure f)).
  2:{ intros c b' H. apply R. now apply in_map. }
  rewrite fold_left_map. reflexivity.
Qed.

(** ** Leaves of the search *)
Inductive Reach : nat -> sv -> sv -> Prop :=
| Reach_leaf idx s : (idx <= 27)%nat -> (forall k, (idx <= k < 27)%nat -> vget (sv_hand s) k = 0) -> Reach idx s s
| Reach_step idx i s j c s' : (idx <= i < 27)%nat -> (forall k, (idx <= k < i)%nat -> vget (sv_hand s) k = 0) ->
    vget (sv_hand s) i <> 0 -> In (j, c) (branches i s) -> Reach j c s' -> Reach idx s s'.

Lemma fold_le (l : list (nat * sv)) p b x :
  (forall j c b, In (j, c) l -> p j c b <= x <-> b <= x \/ exists s', Reach j c s' /\ leaf_value s' <= x) ->
  fold_left (fun b jc => p (fst jc) (snd jc) b) l b <= x <->
  b <= x \/ exists j c s', In (j, c) l /\ Reach j c s' /\ leaf_value s' <= x.
Proof.
  revert b; induction l as [|[j c] l IH]; intros b H; cbn [fold_left fst snd].
  - split; [auto|]. intros [A|(j & c & s' & [] & _)]; exact A.
  - rewrite IH by (intros; apply H; right; assumption). rewrite H by (left; reflexivity). split.
    + intros [[A|(s' & A & B)]|(j' & c' & s' & A & B)]; [now left|right|right].
      * exists j, c, s'. split; [now left|]. auto.
      * exists j', c', s'. split; [now right|]. auto.
    + intros [A|(j' & c' & s' & [A|A] & B & C)]; [now left; left| |].
      * injection A as <- <-. left. right. exists s'. auto.
      * right. exists j', c', s'. auto.
Qed.

Lemma pure_le f : forall idx s b x, length (sv_hand s) = 37%nat -> (idx <= 27)%nat ->
  (mu idx (sv_hand s) < f)%nat ->
  pure f idx s b <= x <-> b <= x \/ exists s', Reach idx s s' /\ leaf_value s' <= x.
Proof.
  induction f as [|f IH]; intros idx s b x L I M; [lia|].
  cbn [pure].
  pose proof (skip_mu idx (sv_hand s) I) as SM.
  pose proof (skip_spec (27 - idx) (sv_hand s) idx) as SK. cbn zeta in SK.
  destruct SK as (Si & Sz & Sn).
  set (i := skip (27 - idx) (sv_hand s) idx) in *. clearbody i.
  destruct (Nat.eqb_spec i 27) as [E|NE].
  - subst i. split.
    + intros H. destruct (Z.le_gt_cases b x); [now left|right]. exists s. split; [|lia].
      constructor; [exact I|]. intros k K. apply Sz. exact K.
    + intros [H|(s' & H & V)]; [lia|].
      inversion H; subst; [lia|]. exfalso. apply H2. apply Sz. lia.
  - assert (I' : (i < 27)%nat) by lia.
    rewrite fold_le.
    2:{ intros j c b' H. destruct (branch_smaller i s j c L I' H) as (A & B & C). apply IH; [exact A|lia|lia]. }
    split.
    + intros [H|(j & c & s' & A & B & C)]; [now left|right]. exists s'. split; [|exact C].
      eapply Reach_step; [|exact Sz| |exact A|exact B]; [lia|]. apply Sn. lia.
    + intros [H|(s' & H & V)]; [now left|right].
      inversion H; subst.
      * exfalso. apply Sn; [lia|]. apply H1. lia.
      * assert (i0 = i).
        { destruct (Nat.lt_trichotomy i i0) as [Q|[Q|Q]]; [|auto|].
          - exfalso. apply Sn; [lia|]. apply H1. lia.
          - exfalso. apply H2. apply Sz. lia. }
        subst i0. exists j, c, s'. auto.
Qed.

Lemma mu_bound idx h : (mu idx h < 140)%nat.
Proof. unfold mu. lia. Qed.

(** The search from the start: the object is restored, only the best value changes. *)
Lemma solve_normal_result s : length (sv_hand s) = 37%nat -> exists b,
  solve_normal 140 0 s = Some (set_best s b) /\
  forall x, b <= x <-> sv_best s <= x \/ exists s', Reach 0 s s' /\ leaf_value s' <= x.
Proof.
  intros L. exists (pure 140 0 s (sv_best s)). split.
  - rewrite <- (set_best_id s) at 1. apply solve_pure; [exact L|lia|apply mu_bound].
  - intros x. apply pure_le; [exact L|lia|apply mu_bound].
Qed.
