(** The bits of a meld code that matter.  [core r] clears the bits that neither the
    kind nor the tiles depend on (source seat, unused bits), so that statements
    about tiles need to be evaluated on far fewer codes. *)
From Coq Require Import ZArith List Bool Lia.
From Verif Require Import Base Naki SpecMeld NakiProofs NakiLemmas.
Import ListNotations.
Open Scope Z_scope.

(** ** Evaluation over all submasks *)
Fixpoint subs (bs : list Z) (acc : Z) (P : Z -> bool) : bool :=
  match bs with
  | [] => P acc
  | b :: r => subs r acc P && subs r (Z.lor acc (2 ^ b)) P
  end.
Definition mask_of (bs : list Z) : Z := fold_right (fun b m => Z.lor (2 ^ b) m) 0 bs.

Lemma land_pow2 c k : 0 <= k -> Z.land c (2 ^ k) = if Z.testbit c k then 2 ^ k else 0.
Proof.
  intros Hk. apply Z.bits_inj'. intros n Hn. rewrite Z.land_spec, Z.pow2_bits_eqb by lia.
  destruct (Z.eqb_spec k n) as [->|Ne].
  - destruct (Z.testbit c n) eqn:E; [|now rewrite Z.bits_0].
    now rewrite Z.pow2_bits_true by lia.
  - rewrite andb_false_r. destruct (Z.testbit c k); [|now rewrite Z.bits_0].
    now rewrite Z.pow2_bits_false by lia.
Qed.

Lemma subs_ok bs : Forall (fun b => 0 <= b) bs -> forall acc P, subs bs acc P = true ->
  forall c, P (Z.lor acc (Z.land c (mask_of bs))) = true.
Proof.
  induction 1 as [|b bs Hb _ IH]; intros acc P H c; cbn [subs mask_of fold_right] in *.
  - now rewrite Z.land_0_r, Z.lor_0_r.
  - apply andb_prop in H as [H0 H1]. rewrite Z.land_lor_distr_r, land_pow2 by exact Hb.
    rewrite Z.lor_assoc. destruct (Z.testbit c b).
    + exact (IH _ _ H1 c).
    + rewrite Z.lor_0_r. exact (IH _ _ H0 c).
Qed.

(** ** The core of a code *)
Definition core (r : Z) : Z :=
  match spec_kind r with
  | Some Chi => Z.lor 4 (Z.land r 0xFDF8)
  | Some Pon => Z.lor 8 (Z.land r 0xFE70)
  | Some Kakan => Z.lor 16 (Z.land r 0xFE60)
  | Some Minkan => Z.lor 1 (Z.land r 0xFF00)
  | Some Ankan => Z.lor 0 (Z.land r 0xFF00)
  | None => 0x20
  end.

Definition core_sweep (P : Z -> bool) : bool :=
  subs [3; 4; 5; 6; 7; 8; 10; 11; 12; 13; 14; 15] 4 P &&
  subs [4; 5; 6; 9; 10; 11; 12; 13; 14; 15] 8 P &&
  subs [5; 6; 9; 10; 11; 12; 13; 14; 15] 16 P &&
  subs [8; 9; 10; 11; 12; 13; 14; 15] 1 P &&
  subs [8; 9; 10; 11; 12; 13; 14; 15] 0 P && P 0x20.

Lemma core_sweep_ok P : core_sweep P = true -> forall r, P (core r) = true.
Proof.
  unfold core_sweep. intros H r.
  apply andb_prop in H as [H H6]. apply andb_prop in H as [H H5]. apply andb_prop in H as [H H4].
  apply andb_prop in H as [H H3]. apply andb_prop in H as [H1 H2].
  unfold core. destruct (spec_kind r) as [[]|].
  - exact (subs_ok [3; 4; 5; 6; 7; 8; 10; 11; 12; 13; 14; 15] ltac:(repeat constructor; discriminate) 4 P H1 r).
  - exact (subs_ok [4; 5; 6; 9; 10; 11; 12; 13; 14; 15] ltac:(repeat constructor; discriminate) 8 P H2 r).
  - exact (subs_ok [5; 6; 9; 10; 11; 12; 13; 14; 15] ltac:(repeat constructor; discriminate) 16 P H3 r).
  - exact (subs_ok [8; 9; 10; 11; 12; 13; 14; 15] ltac:(repeat constructor; discriminate) 1 P H4 r).
  - exact (subs_ok [8; 9; 10; 11; 12; 13; 14; 15] ltac:(repeat constructor; discriminate) 0 P H5 r).
  - exact H6.
Qed.

Lemma land_core a M r m : Z.land (Z.lor a (Z.land r M)) m = Z.lor (Z.land a m) (Z.land r (Z.land M m)).
Proof. now rewrite Z.land_lor_distr_l, <- Z.land_assoc. Qed.

Lemma field_land c l w : 0 <= l -> 0 <= w -> field c l w = Z.shiftr (Z.land c (Z.shiftl (Z.ones w) l)) l.
Proof.
  intros Hl Hw. unfold field. rewrite Z.shiftr_land, Z.shiftr_shiftl_l by lia.
  now rewrite Z.sub_diag, Z.shiftl_0_r.
Qed.

Ltac norm_land :=
  repeat match goal with |- context [Z.land ?a ?b] =>
    is_ground a; is_ground b; let v := eval vm_compute in (Z.land a b) in change (Z.land a b) with v end.

(** masks are closed terms *)
Lemma land_core_val a M r m x y : Z.land a m = x -> Z.land M m = y ->
  Z.land (Z.lor a (Z.land r M)) m = Z.lor x (Z.land r y).
Proof. intros <- <-. apply land_core. Qed.

Lemma field_core a M r l w m x y : 0 <= l -> 0 <= w -> Z.shiftl (Z.ones w) l = m ->
  Z.land a m = x -> Z.land M m = y ->
  field (Z.lor a (Z.land r M)) l w = Z.shiftr (Z.lor x (Z.land r y)) l.
Proof. intros Hl Hw <- Hx Hy. rewrite field_land by assumption. now rewrite (land_core_val _ _ _ _ _ _ Hx Hy). Qed.

Lemma field_kept a M r l w : 0 <= l -> 0 <= w ->
  Z.land a (Z.shiftl (Z.ones w) l) = 0 -> Z.land M (Z.shiftl (Z.ones w) l) = Z.shiftl (Z.ones w) l ->
  field (Z.lor a (Z.land r M)) l w = field r l w.
Proof. intros Hl Hw Ha HM. rewrite !field_land by assumption. now rewrite land_core, Ha, HM, Z.lor_0_l. Qed.

Lemma field_const a M r l w : 0 <= l -> 0 <= w ->
  Z.land M (Z.shiftl (Z.ones w) l) = 0 -> field (Z.lor a (Z.land r M)) l w = field a l w.
Proof. intros Hl Hw HM. rewrite !field_land by assumption. now rewrite land_core, HM, Z.land_0_r, Z.lor_0_r. Qed.

Lemma spec_kind_core r : spec_kind (core r) = spec_kind r.
Proof.
  unfold core. destruct (spec_kind r) as [k|] eqn:E; [|reflexivity].
  assert (Z02 : 0 <= 0 /\ 0 <= 1 /\ 0 <= 2 /\ 0 <= 3 /\ 0 <= 4) by lia.
  destruct k; unfold spec_kind.
  - now rewrite field_const by (first [lia | reflexivity]).
  - rewrite field_const by (first [lia | reflexivity]).
    now rewrite field_const by (first [lia | reflexivity]).
  - rewrite field_const by (first [lia | reflexivity]). rewrite field_const by (first [lia | reflexivity]).
    now rewrite field_const by (first [lia | reflexivity]).
  - rewrite !field_const by (first [lia | reflexivity]). reflexivity.
  - rewrite !field_const by (first [lia | reflexivity]). reflexivity.
Qed.

Lemma land_kept a M r m : Z.land a m = 0 -> Z.land M m = m -> Z.land (Z.lor a (Z.land r M)) m = Z.land r m.
Proof. intros Ha HM. now rewrite land_core, Ha, HM, Z.lor_0_l. Qed.

Lemma kinds_by_spec c : is_chi c = okind_eqb (spec_kind c) (Some Chi) /\
  is_pon c = okind_eqb (spec_kind c) (Some Pon) /\
  is_minkan c = okind_eqb (spec_kind c) (Some Minkan) /\ is_ankan c = okind_eqb (spec_kind c) (Some Ankan) /\
  is_kakan c && negb (is_pon c) = okind_eqb (spec_kind c) (Some Kakan).
Proof.
  destruct (kind_predicates c) as (A & B & C & D & E).
  assert (G : forall (b : bool) k, (b = true <-> spec_kind c = Some k) -> b = okind_eqb (spec_kind c) (Some k)).
  { intros b k H. rewrite <- okind_eqb_true in H. destruct b, (okind_eqb _ _); try reflexivity; intuition congruence. }
  auto 10.
Qed.

Lemma core_tiles r :
  get_exposed (core r) = get_exposed r /\
  get_during_turn_filter_idx (core r) = get_during_turn_filter_idx r /\
  get_post_turn_filter_idx (core r) = get_post_turn_filter_idx r /\
  is_kakan (core r) = is_kakan r.
Proof.
  pose proof (spec_kind_core r) as S.
  destruct (kinds_by_spec r) as (A1 & A2 & A3 & A4 & A5).
  destruct (kinds_by_spec (core r)) as (B1 & B2 & B3 & B4 & B5).
  rewrite S in B1, B2, B3, B4, B5.
  unfold get_exposed, get_during_turn_filter_idx, get_post_turn_filter_idx.
  rewrite A1, A2, A3, A4, B1, B2, B3, B4.
  rewrite A2 in A5. rewrite B2 in B5.
  unfold core. unfold core in B1, B5. clear A2 A3 A4 B2 B3 B4 S.
  destruct (spec_kind r) as [k|]; [destruct k|]; cbn [okind_eqb kind_eqb negb andb] in *; rewrite ?andb_true_r in *.
  - assert (P : pattern_chi (Z.lor 4 (Z.land r 0xFDF8)) = pattern_chi r)
      by (unfold pattern_chi; now rewrite !land_kept by reflexivity).
    rewrite P, A5, B5. auto.
  - assert (P : pattern_pon (Z.lor 8 (Z.land r 0xFE70)) = pattern_pon r)
      by (unfold pattern_pon; now rewrite !land_kept by reflexivity).
    assert (Q : pattern_kakan (Z.lor 8 (Z.land r 0xFE70)) = pattern_kakan r)
      by (unfold pattern_kakan; now rewrite !land_kept by reflexivity).
    assert (C : is_kakan (Z.lor 8 (Z.land r 0xFE70)) = is_kakan r).
    { unfold is_kakan. rewrite A1, B1. now rewrite land_kept by reflexivity. }
    rewrite P, Q, C. auto.
  - assert (P : pattern_kakan (Z.lor 16 (Z.land r 0xFE60)) = pattern_kakan r)
      by (unfold pattern_kakan; now rewrite !land_kept by reflexivity).
    rewrite P, A5, B5. auto.
  - assert (P : pattern_minkan (Z.lor 1 (Z.land r 0xFF00)) = pattern_minkan r)
      by (unfold pattern_minkan; now rewrite !land_kept by reflexivity).
    rewrite P, A5, B5. auto.
  - assert (P : pattern_ankan (Z.lor 0 (Z.land r 0xFF00)) = pattern_ankan r)
      by (unfold pattern_ankan; now rewrite !land_kept by reflexivity).
    rewrite P, A5, B5. auto.
  - rewrite A5. auto.
Qed.

(** The fields that carry the tiles. *)
Lemma core_fields r :
  match spec_kind r with
  | Some Chi => field (core r) 10 6 = field r 10 6 /\ field (core r) 3 2 = field r 3 2 /\
                field (core r) 5 2 = field r 5 2 /\ field (core r) 7 2 = field r 7 2
  | Some Pon => field (core r) 9 7 = field r 9 7 /\ field (core r) 4 1 = field r 4 1 /\
                field (core r) 5 2 = field r 5 2
  | Some Kakan => field (core r) 9 7 = field r 9 7 /\ field (core r) 5 2 = field r 5 2
  | Some Minkan | Some Ankan => field (core r) 8 8 = field r 8 8
  | None => True
  end.
Proof.
  unfold core. destruct (spec_kind r) as [[]|]; repeat split;
    (apply field_kept; first [lia | reflexivity]).
Qed.
