(** Renaming suits and honours does not change the result. *)
From Coq Require Import ZArith List Bool Lia Arith Permutation.
From Verif Require Import Base Constants VecLemmas Shanten SpecShanten ShantenSearch ShantenSymmetry ShantenWins.
Import ListNotations.
Open Scope Z_scope.

(** ** Permutations *)
Lemma vsum_perm v w : Permutation v w -> vsum v = vsum w.
Proof. unfold vsum. induction 1; cbn [fold_right]; lia. Qed.
Lemma sum_ge_perm v w x : Permutation v w -> sum_ge v x = sum_ge w x.
Proof. intros H. unfold sum_ge. apply vsum_perm, Permutation_map, H. Qed.
Lemma sum_eq_perm v w x : Permutation v w -> sum_eq v x = sum_eq w x.
Proof. intros H. unfold sum_eq. apply vsum_perm, Permutation_map, H. Qed.
Lemma fold_max_le l : forall x y, fold_left Z.max l x <= y <-> x <= y /\ Forall (fun z => z <= y) l.
Proof.
  induction l as [|a l IH]; intros x y; cbn [fold_left]; [split; [auto|tauto]|]. rewrite IH. split.
  - intros [A B]. split; [lia|]. constructor; [lia|exact B].
  - intros [A B]. inversion B; subst. split; [lia|assumption].
Qed.
Lemma py_max_le v y : v <> [] -> py_max v <= y <-> Forall (fun z => z <= y) v.
Proof. destruct v as [|x r]; [contradiction|]. intros _. cbn [py_max]. rewrite fold_max_le. split; [intros [A B]; now constructor|intros H; inversion H; auto]. Qed.
Lemma py_max_perm v w : v <> [] -> Permutation v w -> py_max v = py_max w.
Proof.
  intros N P. assert (N' : w <> []) by (intros ->; apply Permutation_sym, Permutation_nil in P; contradiction).
  assert (G : forall y, py_max v <= y <-> py_max w <= y).
  { intros y. rewrite !py_max_le by assumption. split; intros F; rewrite Forall_forall in *; intros z Hz; apply F; [apply Permutation_sym in P|]; eapply Permutation_in; eauto. }
  pose proof (proj1 (G (py_max v)) (Z.le_refl _)). pose proof (proj2 (G (py_max w)) (Z.le_refl _)). lia.
Qed.
Lemma concat_perm {A} (l l' : list (list A)) : Permutation l l' -> Permutation (concat l) (concat l').
Proof.
  induction 1 as [|x l l' _ IH|x y l|l l' l'' _ IH1 _ IH2]; cbn [concat]; [constructor|now apply Permutation_app_head| |now transitivity (concat l')].
  rewrite !app_assoc. apply Permutation_app_tail, Permutation_app_comm.
Qed.

(** ** Orphans *)
Definition ends (s : list Z) : list Z := map (fun p => fst p * snd p) (combine s [1; 0; 0; 0; 0; 0; 0; 0; 1]).
Lemma combine_app2 {A B} (l1 l2 : list A) (m1 m2 : list B) : length l1 = length m1 -> combine (l1 ++ l2) (m1 ++ m2) = combine l1 m1 ++ combine l2 m2.
Proof. revert m1. induction l1 as [|a l IH]; intros [|b m] H; try discriminate H; [reflexivity|]. cbn. rewrite IH; [reflexivity|now injection H]. Qed.
Lemma yaochu_split suits honours reds : length suits = 3%nat -> Forall (fun s => length s = 9%nat) suits -> length honours = 7%nat ->
  yaochu_arr (concat suits ++ honours ++ reds) = concat (map ends suits) ++ map (fun x => x * 1) honours ++ map (fun p => fst p * snd p) (combine reds [1; 0; 0]).
Proof.
  intros L F H. destruct suits as [|a [|b [|c [|]]]]; try discriminate L. inversion F as [|? ? Ha F1]; subst. inversion F1 as [|? ? Hb F2]; subst. inversion F2 as [|? ? Hc _]; subst.
  unfold yaochu_arr.
  change YAOCHU_TENSOR with ([1; 0; 0; 0; 0; 0; 0; 0; 1] ++ [1; 0; 0; 0; 0; 0; 0; 0; 1] ++ [1; 0; 0; 0; 0; 0; 0; 0; 1] ++ [1; 1; 1; 1; 1; 1; 1] ++ [1; 0; 0]).
  cbn [concat map]. rewrite !app_nil_r, <- !app_assoc. rewrite !combine_app2 by assumption. rewrite !map_app. unfold ends. do 3 f_equal. f_equal.
  do 7 (destruct honours as [|? honours]; [discriminate H|]). destruct honours; [reflexivity|discriminate H].
Qed.

(** ** The standard search *)
Definition value_of (c : counters) : Z :=
  8 - 2 * c_mentsu c - c_taatsu c - c_toitsu c + Z.max 0 (Z.max 0 (c_toitsu c - 1) + c_taatsu c + c_mentsu c - 4) +
  (if truthy (c_tune c) && negb (truthy (c_toitsu c)) then 1 else 0).
Lemma leaf_counts s : leaf_value s = value_of (counts s). Proof. reflexivity. Qed.

Lemma contributes_ext f g d : (forall j, (j < 9)%nat -> f j = g j) -> contributes f d -> contributes g d.
Proof.
  intros E. unfold contributes. replace (alone g) with (alone f); [auto|]. unfold alone. f_equal. apply map_ext. intros t. destruct (Nat.ltb_spec t 9); auto.
Qed.

Definition adds_up (suits : list (list Z)) (c : counters) : Prop :=
  exists ds, Forall2 (fun s d => contributes (fun j => vget s j) d) suits ds /\ c = fold_right cadd czero ds.
Lemma adds_up_perm l l' : Permutation l l' -> forall c, adds_up l c -> adds_up l' c.
Proof.
  induction 1 as [|x l l' _ IH|x y l|l l' l'' _ IH1 _ IH2]; intros c A; [exact A| | |now apply IH2, IH1].
  - destruct A as (ds & F & ->). inversion F as [|? d ? ds' C F']; subst. destruct (IH (fold_right cadd czero ds')) as (es & G & E); [exists ds'; auto|].
    exists (d :: es). split; [now constructor|]. cbn [fold_right]. now rewrite E.
  - destruct A as (ds & F & ->). inversion F as [|? d ? ds' C F']; subst. inversion F' as [|? e ? es C' F'']; subst. exists (e :: d :: es).
    split; [now repeat (constructor; [assumption|])|]. cbn [fold_right]. unfold cadd. cbn. f_equal; lia.
Qed.

Lemma suit_of suits rest q j : length suits = 3%nat -> Forall (fun s => length s = 9%nat) suits -> (q < 3)%nat -> (j < 9)%nat ->
  suit (concat suits ++ rest) q j = vget (nth q suits []) j.
Proof.
  intros L F Q J. destruct suits as [|a [|b [|c [|]]]]; try discriminate L. inversion F as [|? ? Ha F1]; subst. inversion F1 as [|? ? Hb F2]; subst. inversion F2 as [|? ? Hc _]; subst.
  unfold suit, vget. cbn [concat]. rewrite app_nil_r, <- !app_assoc. destruct q as [|[|[|q]]]; [| | |lia]; cbn [nth].
  - rewrite app_nth1 by lia. reflexivity.
  - rewrite app_nth2 by lia. rewrite app_nth1 by lia. f_equal. lia.
  - rewrite app_nth2 by lia. rewrite app_nth2 by lia. rewrite app_nth1 by lia. f_equal. lia.
Qed.

Lemma leaves_suits s suits rest c : length (sv_hand s) = 37%nat -> sv_hand s = concat suits ++ rest -> length suits = 3%nat -> Forall (fun s => length s = 9%nat) suits ->
  (exists s', Reach 0 s s' /\ counts s' = c) <-> exists d, adds_up suits d /\ c = cadd (counts s) d.
Proof.
  intros L E Ls F. rewrite (leaves s c L), E. pose proof (suit_of suits rest) as So. destruct suits as [|a0 [|a1 [|a2 [|]]]] eqn:Es; try discriminate Ls.
  assert (S0 := fun j J => So 0%nat j Ls F ltac:(lia) J). assert (S1 := fun j J => So 1%nat j Ls F ltac:(lia) J). assert (S2 := fun j J => So 2%nat j Ls F ltac:(lia) J). cbn [nth] in S0, S1, S2.
  split.
  - intros (d0 & d1 & d2 & C0 & C1 & C2 & ->). exists (fold_right cadd czero [d0; d1; d2]). split.
    + exists [d0; d1; d2]. split; [|reflexivity]. repeat (constructor; [eapply contributes_ext; [|eassumption]; assumption|]). constructor.
    + cbn [fold_right]. unfold cadd, czero. cbn. f_equal; lia.
  - intros (d & (ds & G & ->) & ->). inversion G as [|? d0 ? ds0 C0 G0]; subst. inversion G0 as [|? d1 ? ds1 C1 G1]; subst. inversion G1 as [|? d2 ? ds2 C2 G2]; subst. inversion G2; subst.
    exists d0, d1, d2. split; [eapply contributes_ext; [|exact C0]; intros j J; symmetry; now apply S0|]. split; [eapply contributes_ext; [|exact C1]; intros j J; symmetry; now apply S1|].
    split; [eapply contributes_ext; [|exact C2]; intros j J; symmetry; now apply S2|]. cbn [fold_right]. unfold cadd, czero. cbn. f_equal; lia.
Qed.

Lemma renamed_sym h h' : renamed h h' -> renamed h' h.
Proof.
  intros (s & s' & o & o' & r & -> & -> & L & F & Lo & Lr & P & Q). exists s', s, o', o, r. repeat (split; [reflexivity|]).
  split; [now rewrite <- (Permutation_length P)|]. split; [rewrite Forall_forall in *; intros x I; apply F; eapply Permutation_in; [symmetry; exact P|exact I]|].
  split; [now rewrite <- (Permutation_length Q)|]. split; [exact Lr|]. split; now symmetry.
Qed.

Lemma renamed_length h h' : renamed h h' -> length h = 37%nat.
Proof.
  intros (s & s' & o & o' & r & -> & _ & L & F & Lo & Lr & _). destruct s as [|a [|b [|c [|]]]]; try discriminate L.
  inversion F as [|? ? Ha F1]; subst. inversion F1 as [|? ? Hb F2]; subst. inversion F2 as [|? ? Hc _]; subst. cbn [concat]. rewrite !app_length. cbn [length]. lia.
Qed.

Lemma renamed_init h h' : renamed h h' -> counts (sv_init h) = counts (sv_init h') /\ sum_ge h 2 = sum_ge h' 2 /\
  sum_ge (yaochu_arr h) 1 = sum_ge (yaochu_arr h') 1 /\ py_max (yaochu_arr h) = py_max (yaochu_arr h').
Proof.
  intros R. pose proof (renamed_sym _ _ R) as R'. destruct R as (s & s' & o & o' & r & -> & -> & L & F & Lo & Lr & P & Q).
  assert (L' : length s' = 3%nat) by now rewrite <- (Permutation_length P). assert (Lo' : length o' = 7%nat) by now rewrite <- (Permutation_length Q).
  assert (F' : Forall (fun s => length s = 9%nat) s') by (rewrite Forall_forall in *; intros x I; apply F; eapply Permutation_in; [symmetry; exact P|exact I]).
  assert (PC : Permutation (concat s) (concat s')) by now apply concat_perm.
  assert (PR : Permutation (o ++ r) (o' ++ r)) by now apply Permutation_app_tail.
  assert (PH : Permutation (concat s ++ o ++ r) (concat s' ++ o' ++ r)) by now apply Permutation_app.
  assert (C27 : forall x, length x = 3%nat -> Forall (fun y : list Z => length y = 9%nat) x -> length (concat x) = 27%nat).
  { clear. intros x Lx Fx. destruct x as [|a [|b [|c [|]]]]; try discriminate Lx. inversion Fx as [|? ? Ha F1]; subst. inversion F1 as [|? ? Hb F2]; subst. inversion F2 as [|? ? Hc _]; subst.
    cbn [concat]. rewrite !app_length. cbn [length]. lia. }
  assert (SK : forall x y : list Z, length x = 27%nat -> skipn 27 (x ++ y) = y) by (intros x y Lx; rewrite <- Lx, skipn_app, skipn_all, Nat.sub_diag; reflexivity).
  split; [|split; [now apply sum_ge_perm|]].
  - unfold counts, sv_init. cbn [sv_mentsu sv_taatsu sv_toitsu sv_tune]. rewrite !SK by (apply C27; assumption).
    rewrite (vsum_perm _ _ PH), (sum_ge_perm _ _ 3 PR), (sum_eq_perm _ _ 2 PR). reflexivity.
  - rewrite !yaochu_split by assumption.
    assert (PY : Permutation (concat (map ends s) ++ map (fun x => x * 1) o ++ map (fun p => fst p * snd p) (combine r [1; 0; 0]))
                             (concat (map ends s') ++ map (fun x => x * 1) o' ++ map (fun p => fst p * snd p) (combine r [1; 0; 0]))).
    { apply Permutation_app; [apply concat_perm, Permutation_map, P|]. apply Permutation_app_tail, Permutation_map, Q. }
    split; [now apply sum_ge_perm|]. apply py_max_perm; [|exact PY]. intros E. apply (f_equal (@length Z)) in E. rewrite !app_length, map_length in E. cbn in E. lia.
Qed.

Lemma renamed_normal h h' : renamed h h' -> normal_value h = normal_value h'.
Proof.
  assert (G : forall h h', renamed h h' -> normal_value h' <= normal_value h).
  { clear. intros h h' R. pose proof (renamed_length _ _ R) as Lh. pose proof (renamed_length _ _ (renamed_sym _ _ R)) as Lh'. destruct (renamed_init _ _ R) as (Ci & _).
    destruct (normal_ok h Lh) as [_ N]. destruct (normal_ok h' Lh') as [_ N']. apply N'. destruct (proj1 (N (normal_value h)) (Z.le_refl _)) as [A|(s' & A & V)]; [now left|right].
    destruct R as (s & t & o & o' & r & E & E' & L & F & Lo & Lr & P & Q).
    assert (L' : length t = 3%nat) by now rewrite <- (Permutation_length P).
    assert (F' : Forall (fun s => length s = 9%nat) t) by (rewrite Forall_forall in *; intros x I; apply F; eapply Permutation_in; [symmetry; exact P|exact I]).
    destruct (proj1 (leaves_suits (sv_init h) s (o ++ r) (counts s') Lh E L F)) as (d & D & Ec); [exists s'; auto|].
    destruct (proj2 (leaves_suits (sv_init h') t (o' ++ r) (counts s') Lh' E' L' F')) as (s2 & R2 & E2).
    { exists d. split; [now apply (adds_up_perm s t P)|]. now rewrite <- Ci. }
    exists s2. split; [exact R2|]. rewrite leaf_counts, E2, <- leaf_counts. exact V. }
  intros R. pose proof (G _ _ R). pose proof (G _ _ (renamed_sym _ _ R)). lia.
Qed.

Lemma renamed_shanten h h' : renamed h h' -> exists n, option_map fst (shanten h) = Some n /\ option_map fst (shanten h') = Some n.
Proof.
  intros R. pose proof (renamed_length _ _ R) as Lh. pose proof (renamed_length _ _ (renamed_sym _ _ R)) as Lh'.
  destruct (renamed_init _ _ R) as (_ & S2 & S1 & M). pose proof (renamed_normal _ _ R) as N.
  destruct (solve_ok h Lh) as (b & E & V). destruct (solve_ok h' Lh') as (b' & E' & V'). exists b. rewrite E, E'. cbn [option_map fst]. split; [reflexivity|]. f_equal. rewrite V, V', N, S2, S1, M. reflexivity.
Qed.
