(** Lemmas about the meld codec.  Every method of Naki looks at the code only
    through masks below 2^16, so each statement about all integers reduces to
    the 65536 residues, which are checked by evaluation in the kernel and
    lifted back to all integers. *)
From Coq Require Import ZArith List Bool Lia ZifyBool.
From Verif Require Import Base Naki SpecMeld.
Import ListNotations.
Open Scope Z_scope.

(** ** Exhaustive evaluation over [0, 2^n) lifted to a universal statement *)
Fixpoint sweep (n : nat) (P : Z -> bool) : bool :=
  match n with
  | O => P 0
  | S k => sweep k (fun r => P (2 * r)) && sweep k (fun r => P (2 * r + 1))
  end.

Lemma sweep_correct n : forall P, sweep n P = true ->
  forall r, 0 <= r < 2 ^ Z.of_nat n -> P r = true.
Proof.
  induction n as [|n IH]; intros P H r Hr; cbn [sweep] in H.
  - change (2 ^ Z.of_nat 0) with 1 in Hr. replace r with 0 by lia. exact H.
  - apply andb_prop in H as [H0 H1].
    rewrite Nat2Z.inj_succ, Z.pow_succ_r in Hr by lia.
    pose proof (Z.div_mod r 2 ltac:(lia)) as E.
    pose proof (Z.mod_pos_bound r 2 ltac:(lia)) as B.
    assert (C : r mod 2 = 0 \/ r mod 2 = 1) by lia.
    destruct C as [C|C]; rewrite C in E.
    + specialize (IH _ H0 (r / 2) ltac:(lia)). cbv beta in IH.
      now replace (2 * (r / 2)) with r in IH by lia.
    + specialize (IH _ H1 (r / 2) ltac:(lia)). cbv beta in IH.
      now replace (2 * (r / 2) + 1) with r in IH by lia.
Qed.

Lemma sweep16 P : sweep 16 P = true -> forall r, 0 <= r < 65536 -> P r = true.
Proof. intros H r Hr. apply (sweep_correct 16 P H). exact Hr. Qed.

(** ** Reduction to residues *)
Definition lo (c : Z) : Z := c mod 65536.
Definition hi (c : Z) : Z := c / 65536.

Lemma lo_range c : 0 <= lo c < 65536.
Proof. apply Z.mod_pos_bound. lia. Qed.

Lemma hi_lo c : c = 65536 * hi c + lo c.
Proof. apply Z.div_mod. lia. Qed.

Lemma lo_small r : 0 <= r < 65536 -> lo r = r.
Proof. apply Z.mod_small. Qed.

Lemma lo_ones c : lo c = Z.land c (Z.ones 16).
Proof. rewrite Z.land_ones by lia. reflexivity. Qed.

Lemma land_lo c m : 0 <= m < 65536 -> Z.land c m = Z.land (lo c) m.
Proof.
  intros Hm. rewrite lo_ones, <- Z.land_assoc. f_equal.
  rewrite Z.land_comm, Z.land_ones by lia. symmetry. apply Z.mod_small. exact Hm.
Qed.

Lemma high_bit0 r n : 0 <= r < 65536 -> 16 <= n -> Z.testbit r n = false.
Proof.
  intros Hr Hn. destruct (Z.eq_dec r 0) as [->|Hz]; [apply Z.bits_0|].
  apply Z.bits_above_log2; [lia|]. apply Z.log2_lt_pow2; [lia|].
  apply Z.lt_le_trans with (2 ^ 16); [exact (proj2 Hr)| apply Z.pow_le_mono_r; lia].
Qed.

Lemma split_lor h r : 0 <= r < 65536 -> 65536 * h + r = Z.lor (Z.shiftl h 16) r.
Proof.
  intros Hr. rewrite Z.shiftl_mul_pow2 by lia. change (2 ^ 16) with 65536.
  assert (L : Z.land (h * 65536) r = 0).
  2:{ transitivity (h * 65536 + r); [lia|]. rewrite (Z.add_nocarry_lxor _ _ L).
      apply Z.bits_inj'. intros n Hn. rewrite Z.lxor_spec, Z.lor_spec.
      apply (f_equal (fun x => Z.testbit x n)) in L.
      rewrite Z.land_spec, Z.bits_0 in L.
      destruct (Z.testbit (h * 65536) n), (Z.testbit r n); easy. }
  apply Z.bits_inj'. intros n Hn. rewrite Z.land_spec, Z.bits_0.
  destruct (Z.ltb_spec n 16).
  - change 65536 with (2 ^ 16). rewrite Z.mul_pow2_bits_low by lia. reflexivity.
  - rewrite (high_bit0 r n) by lia. apply andb_false_r.
Qed.

Lemma land_lnot_split c m : 0 <= m < 65536 ->
  Z.land c (Z.lnot m) = 65536 * hi c + Z.land (lo c) (Z.lnot m).
Proof.
  intros Hm.
  assert (E : forall x, Z.land x (Z.lnot m) = x - Z.land x m).
  { intros x. rewrite <- Z.ldiff_land.
    pose proof (Z.sub_nocarry_ldiff x (Z.land x m)) as S.
    rewrite S.
    - apply Z.bits_inj'. intros n Hn. rewrite !Z.ldiff_spec, Z.land_spec.
      destruct (Z.testbit x n), (Z.testbit m n); reflexivity.
    - apply Z.bits_inj'. intros n Hn. rewrite Z.ldiff_spec, Z.land_spec, Z.bits_0.
      destruct (Z.testbit x n), (Z.testbit m n); reflexivity. }
  rewrite !E, (land_lo c m Hm). rewrite (hi_lo c) at 1. lia.
Qed.

Lemma lor_split h r m : 0 <= r < 65536 -> 0 <= m < 65536 ->
  Z.lor (65536 * h + r) m = 65536 * h + Z.lor r m.
Proof.
  intros Hr Hm. rewrite (split_lor h r Hr), <- Z.lor_assoc.
  assert (0 <= Z.lor r m < 65536).
  { split. apply Z.lor_nonneg; lia.
    destruct (Z.eq_dec (Z.lor r m) 0) as [->|Hz]; [lia|].
    change 65536 with (2^16). apply Z.log2_lt_pow2.
    - pose proof (proj2 (Z.lor_nonneg r m) ltac:(lia)). lia.
    - rewrite Z.log2_lor by lia. apply Z.max_lub_lt.
      + destruct (Z.eq_dec r 0) as [->|]; [reflexivity|]. apply Z.log2_lt_pow2; lia.
      + destruct (Z.eq_dec m 0) as [->|]; [reflexivity|]. apply Z.log2_lt_pow2; lia. }
  symmetry. apply split_lor. assumption.
Qed.

Lemma lxor_bound r m : 0 <= r < 65536 -> 0 <= m < 65536 -> 0 <= Z.lxor r m < 65536.
Proof.
  intros Hr Hm. assert (N : 0 <= Z.lxor r m) by (apply Z.lxor_nonneg; lia).
  split; [exact N|].
  destruct (Z.eq_dec (Z.lxor r m) 0) as [->|Hz]; [lia|].
  change 65536 with (2^16). apply Z.log2_lt_pow2; [lia|].
  eapply Z.le_lt_trans; [apply Z.log2_lxor; lia|]. apply Z.max_lub_lt.
  - destruct (Z.eq_dec r 0) as [->|]; [reflexivity|]. apply Z.log2_lt_pow2; lia.
  - destruct (Z.eq_dec m 0) as [->|]; [reflexivity|]. apply Z.log2_lt_pow2; lia.
Qed.

Lemma lxor_split h r m : 0 <= r < 65536 -> 0 <= m < 65536 ->
  Z.lxor (65536 * h + r) m = 65536 * h + Z.lxor r m.
Proof.
  intros Hr Hm. rewrite (split_lor h r Hr), (split_lor h _ (lxor_bound r m Hr Hm)).
  apply Z.bits_inj'. intros n Hn. rewrite Z.lxor_spec, !Z.lor_spec, Z.lxor_spec.
  destruct (Z.ltb_spec n 16).
  - rewrite Z.shiftl_spec_low by lia. reflexivity.
  - rewrite (high_bit0 m n), !xorb_false_r by lia. reflexivity.
Qed.

(** The methods only depend on the low 16 bits. *)
Lemma from_who_lo c : from_who c = from_who (lo c).
Proof. apply land_lo. lia. Qed.
Lemma is_chi_lo c : is_chi c = is_chi (lo c).
Proof. unfold is_chi. now rewrite (land_lo c) by lia. Qed.
Lemma is_pon_lo c : is_pon c = is_pon (lo c).
Proof. unfold is_pon. rewrite is_chi_lo. now rewrite (land_lo c) by lia. Qed.
Lemma is_kakan_lo c : is_kakan c = is_kakan (lo c).
Proof. unfold is_kakan. rewrite is_chi_lo. now rewrite (land_lo c) by lia. Qed.
Lemma is_minkan_lo c : is_minkan c = is_minkan (lo c).
Proof. unfold is_minkan. rewrite from_who_lo. now rewrite (land_lo c) by lia. Qed.
Lemma is_ankan_lo c : is_ankan c = is_ankan (lo c).
Proof. unfold is_ankan. rewrite from_who_lo. now rewrite (land_lo c) by lia. Qed.
Lemma pattern_chi_lo c : pattern_chi c = pattern_chi (lo c).
Proof. unfold pattern_chi. now rewrite !(land_lo c) by lia. Qed.
Lemma pattern_pon_lo c : pattern_pon c = pattern_pon (lo c).
Proof. unfold pattern_pon. now rewrite !(land_lo c) by lia. Qed.
Lemma pattern_kakan_lo c : pattern_kakan c = pattern_kakan (lo c).
Proof. unfold pattern_kakan. now rewrite !(land_lo c) by lia. Qed.
Lemma pattern_minkan_lo c : pattern_minkan c = pattern_minkan (lo c).
Proof. unfold pattern_minkan. now rewrite !(land_lo c) by lia. Qed.
Lemma pattern_ankan_lo c : pattern_ankan c = pattern_ankan (lo c).
Proof. unfold pattern_ankan. now rewrite !(land_lo c) by lia. Qed.
Lemma get_exposed_lo c : get_exposed c = get_exposed (lo c).
Proof.
  unfold get_exposed.
  now rewrite is_chi_lo, is_pon_lo, is_kakan_lo, is_minkan_lo, is_ankan_lo,
    pattern_chi_lo, pattern_pon_lo, pattern_kakan_lo, pattern_minkan_lo, pattern_ankan_lo.
Qed.
Lemma during_idx_lo c : get_during_turn_filter_idx c = get_during_turn_filter_idx (lo c).
Proof.
  unfold get_during_turn_filter_idx.
  now rewrite is_ankan_lo, is_kakan_lo, pattern_ankan_lo, pattern_kakan_lo.
Qed.
Lemma post_idx_lo c : get_post_turn_filter_idx c = get_post_turn_filter_idx (lo c).
Proof.
  unfold get_post_turn_filter_idx.
  now rewrite is_chi_lo, is_pon_lo, is_minkan_lo, pattern_chi_lo, pattern_pon_lo, pattern_minkan_lo.
Qed.

Lemma field_lo c l w : 0 <= l -> 0 <= w -> l + w <= 16 -> field c l w = field (lo c) l w.
Proof.
  intros Hl Hw Hlw. unfold field.
  apply Z.bits_inj'. intros n Hn.
  rewrite !Z.land_spec, !Z.shiftr_spec by lia.
  rewrite lo_ones, Z.land_spec. rewrite !Z.testbit_ones_nonneg by lia.
  destruct (Z.ltb_spec n w); [|now rewrite !andb_false_r].
  rewrite !andb_true_r. destruct (Z.ltb_spec (n + l) 16); [now rewrite andb_true_r| lia].
Qed.

Lemma spec_kind_lo c : spec_kind c = spec_kind (lo c).
Proof. unfold spec_kind. now rewrite !(field_lo c) by lia. Qed.

(** [clean] keeps the high bits and acts on the low ones. *)
Definition shift_res (h : Z) (x : res Z) : res Z :=
  match x with Ok v => Ok (65536 * h + v) | Err e => Err e end.

Definition chk_chi_bit (r : Z) : bool :=
  let p := pattern_chi r in
  let bit := 3 + (4 - p_number p) * 2 in
  implb (p_red p) ((0 <=? bit) && (Z.shiftl 1 bit <? 65536)) &&
  (0 <=? Z.land r (Z.lnot (Z.lor (Z.lor 0x18 0x60) 0x180))) &&
  (Z.land r (Z.lnot (Z.lor (Z.lor 0x18 0x60) 0x180)) <? 65536) &&
  (0 <=? Z.lor (Z.land r (Z.lnot (Z.lor (Z.lor 0x18 0x60) 0x180))) (Z.lor (Z.lor 0x8 0x20) 0x80)) &&
  (Z.lor (Z.land r (Z.lnot (Z.lor (Z.lor 0x18 0x60) 0x180))) (Z.lor (Z.lor 0x8 0x20) 0x80) <? 65536)
  && (0 <=? Z.land r (Z.lnot 0x60)) && (Z.land r (Z.lnot 0x60) <? 65536).

Lemma chk_chi_bit_ok : sweep 16 chk_chi_bit = true.
Proof. vm_compute. reflexivity. Qed.

Lemma clean_lo c : clean c = shift_res (hi c) (clean (lo c)).
Proof.
  pose proof (sweep16 _ chk_chi_bit_ok _ (lo_range c)) as K.
  unfold chk_chi_bit in K. cbv zeta in K.
  repeat (apply andb_prop in K; destruct K as [K ?]).
  unfold clean.
  rewrite is_chi_lo, is_pon_lo, is_kakan_lo, is_minkan_lo, is_ankan_lo.
  destruct (is_chi (lo c)).
  { unfold clean_chi. rewrite pattern_chi_lo.
    rewrite (land_lnot_split c _) by (cbv; split; congruence).
    rewrite lor_split by (first [lia | cbv; split; congruence]).
    destruct (p_red (pattern_chi (lo c))) eqn:R; [|reflexivity].
    cbn [implb] in K. unfold one_shl.
    apply andb_prop in K as [K1 K2].
    destruct (Z.ltb_spec (3 + (4 - p_number (pattern_chi (lo c))) * 2) 0); [lia|].
    cbn [bind shift_res]. f_equal. apply lxor_split; [lia|].
    split; [apply Z.shiftl_nonneg; lia | lia]. }
  destruct (is_pon (lo c)).
  { unfold clean_pon. rewrite pattern_pon_lo, (land_lnot_split c) by lia.
    cbn [shift_res]. destruct (p_red (pattern_pon (lo c))); [|reflexivity].
    destruct (negb (p_which (pattern_pon (lo c)) =? 0)); f_equal; lia. }
  destruct (is_kakan (lo c)).
  { unfold clean_kakan. rewrite pattern_kakan_lo, (land_lnot_split c) by lia.
    cbn [shift_res].
    destruct (negb (p_red (pattern_kakan (lo c))) || negb (p_which (pattern_kakan (lo c)) =? 0)); [|reflexivity].
    f_equal. apply lor_split; lia. }
  destruct (is_minkan (lo c)).
  { unfold clean_minkan. rewrite pattern_minkan_lo. cbn [shift_res].
    pose proof (hi_lo c).
    destruct (negb (p_red (pattern_minkan (lo c))) || negb (p_which (pattern_minkan (lo c)) =? 0)); f_equal; lia. }
  destruct (is_ankan (lo c)).
  { unfold clean_ankan. cbn [shift_res]. f_equal. apply land_lnot_split.
    cbv; split; congruence. }
  reflexivity.
Qed.
