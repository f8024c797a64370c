(** When two calls compare equal, and when two reactions share an action index: exact
    conditions. *)
From Coq Require Import ZArith List Bool Lia.
From Verif Require Import Base Naki SpecMeld NakiProofs NakiLemmas NakiCore NakiLemmas2.
Import ListNotations.
Open Scope Z_scope.

(** ** Evaluation over all codes without stray bits *)
Definition sweep_clear (P : Z -> bool) : bool :=
  subs [0; 1; 3; 4; 5; 6; 7; 8; 10; 11; 12; 13; 14; 15] 4 P &&
  subs [0; 1; 5; 6; 9; 10; 11; 12; 13; 14; 15] 8 P &&
  subs [0; 1; 5; 6; 9; 10; 11; 12; 13; 14; 15] 16 P &&
  subs [0; 1; 8; 9; 10; 11; 12; 13; 14; 15] 0 P.

Lemma field_bit c l w k : 0 <= l -> 0 <= k < w -> Z.testbit (field c l w) k = Z.testbit c (l + k).
Proof.
  intros Hl Hk. unfold field. rewrite Z.land_spec, Z.shiftr_spec, Z.ones_spec_low by lia.
  rewrite andb_true_r. f_equal. lia.
Qed.
Lemma field_one c l : 0 <= l -> field c l 1 = 1 -> Z.testbit c l = true.
Proof. intros Hl H. rewrite <- (Z.add_0_r l), <- (field_bit c l 1 0) by lia. now rewrite H. Qed.
Lemma field_zero c l w k : 0 <= l -> 0 <= k < w -> field c l w = 0 -> Z.testbit c (l + k) = false.
Proof. intros Hl Hk H. rewrite <- (field_bit c l w k) by lia. rewrite H. apply Z.bits_0. Qed.

Lemma same_bits c d : 0 <= c < 65536 -> 0 <= d < 65536 ->
  (forall k, In k (zrange 16) -> Z.testbit c k = Z.testbit d k) -> c = d.
Proof.
  intros Hc Hd H. apply Z.bits_inj'. intros n Hn. destruct (Z.lt_ge_cases n 16).
  - apply H. apply in_map_iff. exists (Z.to_nat n). split; [lia|]. apply in_seq. lia.
  - rewrite !high_bit0 by lia. reflexivity.
Qed.
Lemma lor_land_range a M c : 0 <= a < 65536 -> 0 <= M < 65536 -> 0 <= c < 65536 -> 0 <= Z.lor a (Z.land c M) < 65536.
Proof.
  intros Ha HM Hc. split.
  - apply Z.lor_nonneg. split; [lia|]. apply Z.land_nonneg. lia.
  - assert (E : Z.lor a (Z.land c M) = Z.land (Z.lor a (Z.land c M)) (Z.ones 16)).
    { apply Z.bits_inj'. intros n Hn. rewrite Z.land_spec. destruct (Z.lt_ge_cases n 16).
      - rewrite Z.ones_spec_low by lia. now rewrite andb_true_r.
      - rewrite Z.ones_spec_high by lia. rewrite andb_false_r, Z.lor_spec, Z.land_spec, !high_bit0 by lia. reflexivity. }
    rewrite E, Z.land_ones by lia. apply Z.mod_pos_bound. lia.
Qed.

Lemma sweep_clear_ok P : sweep_clear P = true -> forall c, unused_clear c -> P c = true.
Proof.
  unfold sweep_clear. intros H c U.
  apply andb_prop in H as [H H4]. apply andb_prop in H as [H H3]. apply andb_prop in H as [H1 H2].
  destruct U as [B U]. destruct (spec_kind c) as [k|] eqn:K; [|contradiction].
  unfold spec_kind in K.
  assert (Z0 : forall l, 0 <= l -> (field c l 1 =? 1) = false -> Z.testbit c l = false).
  { intros l Hl E. destruct (Z.testbit c l) eqn:T; [|reflexivity]. exfalso.
    assert (F : field c l 1 = Z.b2z (Z.testbit c l)).
    { unfold field. replace (Z.ones 1) with 1 by reflexivity.
      apply Z.bits_inj'. intros n Hn. rewrite Z.land_spec, Z.shiftr_spec by lia.
      destruct (Z.eq_dec n 0) as [->|].
      - rewrite T, Z.add_0_l, T. reflexivity.
      - rewrite T. change (Z.b2z true) with 1. change 1 with (2 ^ 0). rewrite !Z.pow2_bits_false by lia. apply andb_false_r. }
    rewrite F, T in E. discriminate. }
  assert (Go : forall bs a, Forall (fun b => 0 <= b) bs -> subs bs a P = true -> 0 <= a < 65536 -> 0 <= mask_of bs < 65536 ->
     (forall k, In k (zrange 16) -> Z.testbit c k = Z.testbit (Z.lor a (Z.land c (mask_of bs))) k) -> P c = true).
  { intros bs a Fb Hs Ha Hm E. pose proof (subs_ok bs Fb a P Hs c) as Q.
    rewrite <- (same_bits c _ B (lor_land_range a (mask_of bs) c Ha Hm B) E) in Q. exact Q. }
  Ltac bits := cbn [zrange map seq In]; intros n0 I; cbv [zrange map seq In Z.of_nat Pos.of_succ_nat Pos.succ] in I;
    repeat (destruct I as [I|I]; [subst n0|]); [..|contradiction]; rewrite Z.lor_spec, Z.land_spec;
    match goal with |- _ = _ || (_ && Z.testbit ?m ?k) => let v := eval vm_compute in (Z.testbit m k) in change (Z.testbit m k) with v end;
    match goal with |- _ = Z.testbit ?m ?k || _ => let v := eval vm_compute in (Z.testbit m k) in change (Z.testbit m k) with v end;
    cbn [orb]; rewrite ?andb_true_r, ?andb_false_r; auto.
  destruct (field c 2 1 =? 1) eqn:E2.
  { injection K as <-. apply Z.eqb_eq in E2. apply field_one in E2; [|discriminate].
    assert (B9 : Z.testbit c 9 = false) by (apply (field_zero c 9 1 0); [discriminate|split; [discriminate|reflexivity]|exact U]).
    eapply (Go [0; 1; 3; 4; 5; 6; 7; 8; 10; 11; 12; 13; 14; 15] 4); [repeat constructor; discriminate|exact H1|split; [discriminate|reflexivity]|split; [discriminate|reflexivity]|bits]. }
  apply Z0 in E2; [|discriminate]. destruct (field c 3 1 =? 1) eqn:E3.
  { injection K as <-. apply Z.eqb_eq in E3. apply field_one in E3; [|discriminate]. destruct U as [U4 U7].
    assert (B4 : Z.testbit c 4 = false) by (apply (field_zero c 4 1 0); [discriminate|split; [discriminate|reflexivity]|exact U4]).
    assert (B7 : Z.testbit c 7 = false) by (apply (field_zero c 7 2 0); [discriminate|split; [discriminate|reflexivity]|exact U7]).
    assert (B8 : Z.testbit c 8 = false) by (apply (field_zero c 7 2 1); [discriminate|split; [discriminate|reflexivity]|exact U7]).
    eapply (Go [0; 1; 5; 6; 9; 10; 11; 12; 13; 14; 15] 8); [repeat constructor; discriminate|exact H2|split; [discriminate|reflexivity]|split; [discriminate|reflexivity]|bits]. }
  apply Z0 in E3; [|discriminate]. destruct (field c 4 1 =? 1) eqn:E4.
  { injection K as <-. apply Z.eqb_eq in E4. apply field_one in E4; [|discriminate].
    assert (B7 : Z.testbit c 7 = false) by (apply (field_zero c 7 2 0); [discriminate|split; [discriminate|reflexivity]|exact U]).
    assert (B8 : Z.testbit c 8 = false) by (apply (field_zero c 7 2 1); [discriminate|split; [discriminate|reflexivity]|exact U]).
    eapply (Go [0; 1; 5; 6; 9; 10; 11; 12; 13; 14; 15] 16); [repeat constructor; discriminate|exact H3|split; [discriminate|reflexivity]|split; [discriminate|reflexivity]|bits]. }
  destruct (field c 2 4 =? 0) eqn:E5; [|discriminate]. apply Z.eqb_eq in E5.
  assert (B4 : Z.testbit c 4 = false) by (apply (field_zero c 2 4 2); [discriminate|split; [discriminate|reflexivity]|exact E5]).
  assert (B5 : Z.testbit c 5 = false) by (apply (field_zero c 2 4 3); [discriminate|split; [discriminate|reflexivity]|exact E5]).
  assert (U6 : field c 6 2 = 0) by (destruct k; first [exact U | destruct (field c 0 2 =? 0); discriminate]).
  assert (B6 : Z.testbit c 6 = false) by (apply (field_zero c 6 2 0); [discriminate|split; [discriminate|reflexivity]|exact U6]).
  assert (B7 : Z.testbit c 7 = false) by (apply (field_zero c 6 2 1); [discriminate|split; [discriminate|reflexivity]|exact U6]).
  eapply (Go [0; 1; 8; 9; 10; 11; 12; 13; 14; 15] 0); [repeat constructor; discriminate|exact H4|split; [discriminate|reflexivity]|split; [discriminate|reflexivity]|bits].
Qed.

(** ** Comparison codes *)
Definition code_of (r : res naki) : Z := match r with Ok nk => nk_code nk | Err _ => -1 end.
(** The comparison code of a call other than an added kan, from what is seen of it. *)
Definition canon (k : kind) (from : Z) (ts : list Z) (ta : option Z) (sig : bool * bool) (place : Z) : Z :=
  match k, ta with
  | Chi, Some t => let low := if place =? 0 then t else hd 0 ts in
      code_of (from_chi_info (low / 9) (low mod 9) place (fst sig || snd sig)) - 3 + from
  | Pon, Some t => from + 8 + 512 * (3 * t + (if fst sig then 1 else if snd sig then 0 else place)) + (if fst sig || snd sig then 96 else 0)
  | Minkan, Some t => from + 256 * (4 * t + (if snd sig then 0 else 1))
  | Ankan, None => 1024 * hd 0 ts
  | _, _ => -1
  end.
Definition place_of (e : list Z * option Z) : Z := match snd e with Some a => claim_place (fst e) a | None => 0 end.
Definition chk_conv c : bool :=
  implb (in_rangeb c)
  match spec_kind c, get_exposed c, clean c with
  | Some Kakan, Ok e, Ok v => v =? from_who c + 16 + 512 * field c 9 7 + (if five_typeb (field c 9 7 / 3) && (field c 9 7 mod 3 =? 0) then 0 else 32)
  | Some k, Ok e, Ok v => v =? canon k (from_who c) (map tile_type (fst e)) (option_map tile_type (snd e)) (red_signature (fst e) (snd e)) (place_of e)
  | _, _, _ => false
  end.
Lemma chk_conv_all : sweep_clear chk_conv = true.
Proof. vm_cast_no_check (eq_refl true). Qed.

(** ** Action indices *)
Definition slot (r : reaction) : Z :=
  match r with
  | RChi low p false => 2 + 21 * (low / 9) + 3 * (low mod 9) + p
  | RChi low p true => 65 + 6 * (low / 9) + 2 * (low mod 9) + (low mod 9 + p - 3) / 2
  | RPon t true => 110 + t / 9
  | RPon t false => if t <? 27 then 83 + t else 86 + t
  | RKan t => 120 + t
  end.
Definition reaction_of (k : kind) (ex : list Z) (a : Z) : option reaction :=
  match k with
  | Chi => Some (RChi (if claim_place ex a =? 0 then tile_type a else tile_type (hd 0 ex)) (claim_place ex a) (has_red_five ex))
  | Pon => Some (RPon (tile_type a) (has_red_five (a :: ex) && (a mod 4 =? 3)))
  | Minkan => Some (RKan (tile_type a))
  | _ => None
  end.
(** the reactions there are *)
Definition reactions : list reaction :=
  flat_map (fun s => flat_map (fun n => flat_map (fun p => RChi (9 * s + n) p false ::
     (if (2 <=? n) && (n <=? 4) && negb (n + p =? 4) then [RChi (9 * s + n) p true] else [])) (zrange 3)) (zrange 7)) (zrange 3) ++
  map (fun t => RPon t false) (zrange 34) ++ [RPon 4 true; RPon 13 true; RPon 22 true] ++ map RKan (zrange 34).
Definition reaction_eqb (x y : reaction) : bool :=
  match x, y with
  | RChi l p b, RChi l' p' b' => (l =? l') && (p =? p') && Bool.eqb b b'
  | RPon t b, RPon t' b' => (t =? t') && Bool.eqb b b'
  | RKan t, RKan t' => t =? t'
  | _, _ => false
  end.
Lemma reaction_eqb_eq x y : reaction_eqb x y = true <-> x = y.
Proof.
  destruct x, y; cbn; rewrite ?andb_true_iff, ?Z.eqb_eq, ?eqb_true_iff; split; intros H; try discriminate; try tauto;
    try (injection H as H); intuition congruence.
Qed.
Definition chk_slot c : bool :=
  implb (in_rangeb c)
  match spec_kind c, get_exposed c with
  | Some k, Ok (ex, Some a) => match reaction_of k ex a, get_post_turn_filter_idx c with
      | Some r, Ok i => (i =? slot r) && existsb (reaction_eqb r) reactions &&
         (match r with RChi low p _ => leqb (insert_at (Z.to_nat p) (tile_type a) (map tile_type ex)) [low; low + 1; low + 2] | _ => true end)
      | _, _ => false end
  | Some k, Ok (ex, None) => match get_post_turn_filter_idx c with Ok _ => false | _ => true end
  | _, _ => false
  end.
Lemma chk_slot_core_all : core_sweep chk_slot = true.
Proof. vm_cast_no_check (eq_refl true). Qed.

Lemma from_who_range c : 0 <= from_who c < 4.
Proof. unfold from_who. change 3 with (Z.ones 2). rewrite (Z.land_ones c 2) by lia. apply Z.mod_pos_bound. lia. Qed.

Lemma in_range_clear c : unused_clear c -> in_range c -> in_rangeb c = true.
Proof. intros [B _] R. apply in_rangeb_ok in R. now rewrite lo_small in R. Qed.

Lemma conv_value c nk ex a k : unused_clear c -> in_range c -> mk_naki c = Ok nk -> get_exposed c = Ok (ex, a) -> spec_kind c = Some k -> k <> Kakan ->
  nk_conv nk = canon k (from_who c) (map tile_type ex) (option_map tile_type a) (red_signature ex a) (place_of (ex, a)).
Proof.
  intros U R M G K N. pose proof (sweep_clear_ok _ chk_conv_all c U) as H. unfold chk_conv in H.
  rewrite (in_range_clear c U R), K, G in H. cbn [implb] in H. unfold mk_naki in M. destruct (clean c) as [v|]; [|discriminate].
  injection M as <-. cbn [nk_conv]. destruct k; try congruence; cbn [fst snd] in H; now apply Z.eqb_eq in H.
Qed.

Lemma conv_kakan c nk : unused_clear c -> in_range c -> mk_naki c = Ok nk -> spec_kind c = Some Kakan ->
  nk_conv nk = from_who c + 16 + 512 * field c 9 7 + (if five_typeb (field c 9 7 / 3) && (field c 9 7 mod 3 =? 0) then 0 else 32).
Proof.
  intros U R M K. pose proof (sweep_clear_ok _ chk_conv_all c U) as H. unfold chk_conv in H.
  rewrite (in_range_clear c U R), K in H. cbn [implb] in H. unfold mk_naki in M. destruct (clean c) as [v|]; [|destruct (get_exposed c); discriminate].
  injection M as <-. cbn [nk_conv]. destruct (get_exposed c) as [e|]; [|discriminate]. now apply Z.eqb_eq in H.
Qed.

(** Added kans compare equal exactly if they extend the same pon of the same tile. *)
Lemma kakan_equal c1 c2 nk1 nk2 : unused_clear c1 -> unused_clear c2 -> in_range c1 -> in_range c2 ->
  mk_naki c1 = Ok nk1 -> mk_naki c2 = Ok nk2 -> spec_kind c1 = Some Kakan -> spec_kind c2 = Some Kakan ->
  (nk_conv nk1 = nk_conv nk2 <-> from_who c1 = from_who c2 /\ field c1 9 7 = field c2 9 7).
Proof.
  intros U1 U2 R1 R2 M1 M2 K1 K2. rewrite (conv_kakan _ _ U1 R1 M1 K1), (conv_kakan _ _ U2 R2 M2 K2).
  pose proof (from_who_range c1). pose proof (from_who_range c2). split; [|intros [-> ->]; reflexivity].
  intros E. destruct (five_typeb (field c1 9 7 / 3) && _), (five_typeb (field c2 9 7 / 3) && _); lia.
Qed.

Lemma canon_pon_inj f f' t t' (s s' : bool * bool) p p' : 0 <= f < 4 -> 0 <= f' < 4 -> 0 <= p < 3 -> 0 <= p' < 3 ->
  canon Pon f [t; t] (Some t) s p = canon Pon f' [t'; t'] (Some t') s' p' -> s = s' -> fst s || snd s = false -> p = p'.
Proof. intros F F' P P' E <- S. apply orb_false_elim in S as [S1 S2]. cbn [canon] in E. rewrite S1, S2 in E. cbn [orb] in E. lia. Qed.

Lemma place_le ex a : 0 <= claim_place ex a <= Z.of_nat (length ex).
Proof.
  unfold claim_place. split; [lia|]. apply inj_le. induction ex as [|x l IH]; cbn; [lia|]. destruct (x <? a); cbn [length]; lia.
Qed.

(** The place of the claimed tile is visible in the types, except for triplets and kans. *)
Definition chi_place_b c : bool :=
  implb (in_rangeb c) match spec_kind c, get_exposed c with
  | Some Chi, Ok ([x; y], Some a) => claim_place [x; y] a =? (if tile_type a <? tile_type x then 0 else if tile_type a <? tile_type y then 1 else 2)
  | Some Chi, _ => false
  | Some Pon, Ok ([x; y], Some a) => true
  | Some Pon, _ => false
  | _, _ => true end.
Lemma chi_place_all : core_sweep chi_place_b = true.
Proof. vm_cast_no_check (eq_refl true). Qed.
Lemma chi_place_at r : chi_place_b r = true.
Proof.
  rewrite <- (core_sweep_ok _ chi_place_all r). unfold chi_place_b. destruct (core_tiles r) as (T1 & _).
  now rewrite in_rangeb_core, spec_kind_core, T1.
Qed.

(** Calls other than added kans compare equal exactly if they agree in everything that can
    be seen and, for a triplet without the red five, in the place of the claimed copy. *)
Lemma calls_equal c1 c2 nk1 nk2 ex1 a1 ex2 a2 : unused_clear c1 -> unused_clear c2 -> in_range c1 -> in_range c2 ->
  mk_naki c1 = Ok nk1 -> mk_naki c2 = Ok nk2 -> get_exposed c1 = Ok (ex1, a1) -> get_exposed c2 = Ok (ex2, a2) -> spec_kind c1 <> Some Kakan ->
  (nk_conv nk1 = nk_conv nk2 <->
   spec_kind c1 = spec_kind c2 /\ from_who c1 = from_who c2 /\ map tile_type ex1 = map tile_type ex2 /\
   option_map tile_type a1 = option_map tile_type a2 /\ red_signature ex1 a1 = red_signature ex2 a2 /\
   (spec_kind c1 = Some Pon -> red_signature ex1 a1 = (false, false) ->
    option_map (claim_place ex1) a1 = option_map (claim_place ex2) a2)).
Proof.
  intros U1 U2 R1 R2 M1 M2 G1 G2 K.
  destruct (spec_kind c1) as [k|] eqn:K1; [|destruct U1 as [_ U]; rewrite K1 in U; contradiction].
  assert (Nk : k <> Kakan) by congruence.
  pose proof (chi_place_at c1) as P1. pose proof (chi_place_at c2) as P2. unfold chi_place_b in P1, P2.
  rewrite (in_range_clear c1 U1 R1), K1, G1 in P1. rewrite (in_range_clear c2 U2 R2), G2 in P2. cbn [implb] in P1, P2.
  pose proof (conv_value c1 nk1 ex1 a1 k U1 R1 M1 G1 K1 Nk) as V1.
  split.
  - intros E. destruct (conv_equal_agree c1 c2 nk1 nk2 ex1 a1 ex2 a2 M1 M2 E ltac:(congruence) G1 G2) as (A & B & C & D & F).
    rewrite K1 in A. split; [exact A|]. split; [exact B|]. split; [exact C|]. split; [exact D|]. split; [exact F|].
    intros Kp S. injection Kp as ->. rewrite <- A in P2.
    pose proof (conv_value c2 nk2 ex2 a2 Pon U2 R2 M2 G2 (eq_sym A) Nk) as V2.
    rewrite V1, V2, <- B, <- C, <- D, <- F, S in E. cbn [canon] in E.
    destruct ex1 as [|x [|y [|z l]]]; try discriminate P1. destruct a1 as [a|]; [|discriminate P1].
    destruct ex2 as [|x2 [|y2 [|z2 l2]]]; try discriminate P2. destruct a2 as [a2|]; [|discriminate P2].
    cbn [option_map canon fst snd orb] in *. unfold place_of in E. cbn [fst snd] in E. f_equal. lia.
  - intros (A & B & C & D & F & Pl).
    pose proof (conv_value c2 nk2 ex2 a2 k U2 R2 M2 G2 (eq_sym A) Nk) as V2.
    rewrite V1, V2, <- B, <- C, <- D, <- F. rewrite <- A in P2. destruct k; try congruence.
    + destruct ex1 as [|x [|y [|z l]]]; try discriminate P1. destruct a1 as [a|]; [|discriminate P1].
      destruct ex2 as [|x2 [|y2 [|z2 l2]]]; try discriminate P2. destruct a2 as [a2|]; [|discriminate P2].
      unfold place_of. cbn [fst snd]. apply Z.eqb_eq in P1, P2. rewrite P1, P2. cbn [map option_map] in C, D.
      injection C as -> ->. injection D as ->. reflexivity.
    + destruct ex1 as [|x [|y [|z l]]]; try discriminate P1. destruct a1 as [a|]; [|discriminate P1].
      destruct ex2 as [|x2 [|y2 [|z2 l2]]]; try discriminate P2. destruct a2 as [a2|]; [|discriminate P2].
      unfold place_of. cbn [fst snd canon option_map].
      destruct (red_signature [x; y] (Some a)) as [[] []]; cbn [fst snd orb]; try reflexivity.
      specialize (Pl eq_refl eq_refl). cbn [option_map] in Pl. injection Pl as ->. reflexivity.
    + unfold canon. reflexivity.
    + unfold canon. reflexivity.
Qed.

(** ** Shared action indices *)
Lemma chk_slot_at r : chk_slot r = true.
Proof.
  rewrite <- (core_sweep_ok _ chk_slot_core_all r). unfold chk_slot. destruct (core_tiles r) as (T1 & T2 & T3 & _).
  now rewrite in_rangeb_core, spec_kind_core, T1, T3.
Qed.
Definition same_slotb (x y : reaction) : bool :=
  match x, y with
  | RChi l p true, RChi l' p' true =>
      ((p =? 1) && (p' =? 2) && (l =? l') && ((l =? 4) || (l =? 13) || (l =? 22))) ||
      ((p' =? 0) && (l' =? l + 7) && ((l =? 4) || (l =? 13)) && ((p =? 1) || (p =? 2)))
  | RChi l p true, RPon t false =>
      ((l =? 21) && (p =? 0) && (t =? 0)) || ((l =? 21) && (p =? 2) && (t =? 1)) || ((l =? 22) && ((p =? 1) || (p =? 2)) && (t =? 3))
  | _, _ => false
  end.
Lemma slots_all : forallb (fun x => forallb (fun y => Bool.eqb (slot x =? slot y) (reaction_eqb x y || same_slotb x y || same_slotb y x)) reactions) reactions = true.
Proof. vm_compute. reflexivity. Qed.
Lemma same_slotb_ok x y : same_slotb x y = true <-> same_slot x y.
Proof.
  split.
  - destruct x as [l p []|t []|t], y as [l' p' []|t' []|t']; cbn [same_slotb]; try discriminate;
      rewrite ?orb_true_iff, ?andb_true_iff, ?orb_true_iff, ?Z.eqb_eq; intros H.
    + destruct H as [[[[-> ->] ->] H]|[[[-> ->] H1] H2]]; [apply ss_567; tauto|apply ss_345; assumption].
    + destruct H as [[[[-> ->] ->]|[[-> ->] ->]]|[[-> H] ->]]; [apply ss_pon1|apply ss_pon2|apply ss_pon4; assumption].
  - intros [low [-> | [-> | ->]]|low place [-> | ->] [-> | ->]| | |place [-> | ->]]; reflexivity.
Qed.

Lemma reads_as_of k ex a r : reads_as k ex a r -> reaction_of k ex a = Some r.
Proof.
  intros [low -> H| -> | ->]; cbn [reaction_of]; try reflexivity. do 2 f_equal. unfold insert_at in H.
  destruct (Z.eqb_spec (claim_place ex a) 0) as [E|N].
  - rewrite E in H. cbn [Z.to_nat firstn skipn app] in H. injection H as H _. exact H.
  - pose proof (place_le ex a). destruct (Z.to_nat (claim_place ex a)) as [|m] eqn:M; [lia|].
    destruct ex as [|x l]; [cbn in M; discriminate|]. cbn [map firstn skipn app hd] in H |- *. injection H as H _. exact H.
Qed.

Lemma post_reaction c i ex a k : in_range c -> get_post_turn_filter_idx c = Ok i -> get_exposed c = Ok (ex, a) -> spec_kind c = Some k ->
  exists b r, a = Some b /\ reads_as k ex b r /\ i = slot r /\ In r reactions.
Proof.
  intros R I G K. apply in_rangeb_ok in R. pose proof (chk_slot_at (lo c)) as H. unfold chk_slot in H.
  rewrite R, <- spec_kind_lo, <- get_exposed_lo, <- post_idx_lo, K, G, I in H. cbn [implb] in H.
  destruct a as [b|]; [|discriminate]. destruct (reaction_of k ex b) as [r|] eqn:E; [|discriminate].
  apply andb_prop in H as [H L]. apply andb_prop in H as [H X]. apply Z.eqb_eq in H. apply existsb_exists in X as (r' & X1 & X2).
  apply reaction_eqb_eq in X2. subst r'. exists b, r. split; [reflexivity|]. split; [|split; assumption].
  destruct k; try discriminate E; injection E as <-; try (now constructor).
  apply leqb_eq in L. now apply ra_chi.
Qed.

Lemma post_exact c1 c2 i1 i2 ex1 a1 ex2 a2 k1 k2 r1 r2 : in_range c1 -> in_range c2 ->
  get_post_turn_filter_idx c1 = Ok i1 -> get_post_turn_filter_idx c2 = Ok i2 ->
  get_exposed c1 = Ok (ex1, Some a1) -> get_exposed c2 = Ok (ex2, Some a2) -> spec_kind c1 = Some k1 -> spec_kind c2 = Some k2 ->
  reads_as k1 ex1 a1 r1 -> reads_as k2 ex2 a2 r2 ->
  (i1 = i2 <-> r1 = r2 \/ same_slot r1 r2 \/ same_slot r2 r1).
Proof.
  intros R1 R2 I1 I2 G1 G2 K1 K2 A1 A2.
  destruct (post_reaction _ _ _ _ _ R1 I1 G1 K1) as (b1 & q1 & E1 & B1 & -> & N1). injection E1 as <-.
  destruct (post_reaction _ _ _ _ _ R2 I2 G2 K2) as (b2 & q2 & E2 & B2 & -> & N2). injection E2 as <-.
  apply reads_as_of in A1, A2, B1, B2. assert (q1 = r1) by congruence. assert (q2 = r2) by congruence. subst q1 q2.
  pose proof slots_all as S. rewrite forallb_forall in S. specialize (S r1 N1). rewrite forallb_forall in S. specialize (S r2 N2).
  apply eqb_prop in S. rewrite <- !same_slotb_ok, <- reaction_eqb_eq, <- Z.eqb_eq, S, !orb_true_iff. tauto.
Qed.
