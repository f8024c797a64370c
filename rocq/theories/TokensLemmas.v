(** Proofs about event tokens and game flags (C09-C11). *)
From Coq Require Import ZArith List Bool Lia.
From Verif Require Import Base Constants Naki Tokens GameInfo SpecMeld SpecTokens NakiProofs NakiLemmas NakiCore NakiLemmas2.
Import ListNotations.
Open Scope Z_scope.

(** Disjoint bit fields: or is plus. *)
Lemma lor_disjoint a b k : 0 <= k -> 0 <= b < 2 ^ k -> Z.lor (Z.shiftl a k) b = 2 ^ k * a + b.
Proof.
  intros Hk Hb. rewrite Z.shiftl_mul_pow2 by lia.
  assert (D : Z.land (a * 2 ^ k) b = 0).
  { apply Z.bits_inj'. intros n Hn. rewrite Z.land_spec, Z.bits_0, <- Z.shiftl_mul_pow2 by lia.
    destruct (Z.lt_ge_cases n k).
    - now rewrite Z.shiftl_spec_low.
    - destruct (Z.eq_dec b 0) as [->|]; [now rewrite Z.bits_0, andb_false_r|].
      rewrite (Z.bits_above_log2 b n); [apply andb_false_r|lia|].
      apply Z.log2_lt_pow2; [lia|]. pose proof (Z.pow_le_mono_r 2 k n). lia. }
  rewrite <- Z.lxor_lor by exact D. rewrite <- Z.add_nocarry_lxor by exact D. lia.
Qed.

Lemma tok_sum st ty w i : 0 <= st < 8 -> 0 <= ty < 8 -> 0 <= w < 4 -> 0 <= i < 256 ->
  tok_or st ty w i = 8192 * st + 1024 * ty + 256 * w + i.
Proof.
  intros H1 H2 H3 H4. unfold tok_or. rewrite <- !Z.lor_assoc.
  rewrite (lor_disjoint w i 8) by (try change (2 ^ 8) with 256; lia).
  rewrite (lor_disjoint ty _ 10) by (change (2 ^ 8) with 256; try change (2 ^ 10) with 1024; lia).
  rewrite (lor_disjoint st _ 13) by (change (2 ^ 8) with 256; change (2 ^ 10) with 1024; try change (2 ^ 13) with 8192; lia).
  change (2 ^ 8) with 256; change (2 ^ 10) with 1024; change (2 ^ 13) with 8192. lia.
Qed.

Lemma tok_fields st ty w i : 0 <= st < 8 -> 0 <= ty < 8 -> 0 <= w < 4 -> 0 <= i < 256 ->
  let tok := tok_or st ty w i in
  tok = 8192 * st + 1024 * ty + 256 * w + i /\ enc_state tok = st /\ enc_type tok = ty /\
  enc_player tok = w /\ enc_naki tok = i /\ enc_tile tok = i mod 128 /\ enc_tsumogiri tok = i / 128.
Proof.
  intros H1 H2 H3 H4. cbv zeta. rewrite tok_sum by assumption.
  set (tok := 8192 * st + 1024 * ty + 256 * w + i).
  assert (G : forall k m, 0 <= k -> 0 <= m -> Z.land (Z.shiftr tok k) (Z.ones m) = (tok / 2 ^ k) mod 2 ^ m).
  { intros k m Hk Hm. now rewrite Z.land_ones, Z.shiftr_div_pow2 by assumption. }
  split; [reflexivity|]. split; [|split; [|split; [|split; [|split]]]].
  - unfold enc_state. change 7 with (Z.ones 3). rewrite G by lia. change (2 ^ 13) with 8192. change (2 ^ 3) with 8.
    replace (tok / 8192) with st
      by (apply Z.div_unique with (r := 1024 * ty + 256 * w + i); unfold tok; lia). apply Z.mod_small. lia.
  - unfold enc_type. change 7 with (Z.ones 3). rewrite G by lia. change (2 ^ 10) with 1024. change (2 ^ 3) with 8.
    replace (tok / 1024) with (ty + st * 8)
      by (apply Z.div_unique with (r := 256 * w + i); unfold tok; lia).
    rewrite Z.mod_add by lia. apply Z.mod_small. lia.
  - unfold enc_player. change 3 with (Z.ones 2). rewrite G by lia. change (2 ^ 8) with 256. change (2 ^ 2) with 4.
    replace (tok / 256) with (w + (st * 8 + ty) * 4)
      by (apply Z.div_unique with (r := i); unfold tok; lia).
    rewrite Z.mod_add by lia. apply Z.mod_small. lia.
  - unfold enc_naki. change 255 with (Z.ones 8). rewrite Z.land_ones by lia. change (2 ^ 8) with 256.
    unfold tok. replace (8192 * st + 1024 * ty + 256 * w + i) with (i + (32 * st + 4 * ty + w) * 256) by lia.
    rewrite Z.mod_add by lia. apply Z.mod_small. lia.
  - unfold enc_tile. change 127 with (Z.ones 7). rewrite Z.land_ones by lia. change (2 ^ 7) with 128.
    unfold tok. replace (8192 * st + 1024 * ty + 256 * w + i) with (i + (64 * st + 8 * ty + 2 * w) * 128) by lia.
    now rewrite Z.mod_add by lia.
  - unfold enc_tsumogiri. change 1 with (Z.ones 1). rewrite G by (cbn; lia). change (2 ^ 7) with 128. change (2 ^ 1) with 2.
    unfold tok. replace (8192 * st + 1024 * ty + 256 * w + i) with (i + (64 * st + 8 * ty + 2 * w) * 128) by lia.
    rewrite Z.div_add by lia. replace (i / 128 + (64 * st + 8 * ty + 2 * w)) with (i / 128 + (32 * st + 4 * ty + w) * 2) by lia.
    rewrite Z.mod_add by lia. apply Z.mod_small.
    split; [apply Z.div_pos; lia|apply Z.div_lt_upper_bound; lia].
Qed.

Lemma lor_assoc3 a b c d : Z.lor (Z.lor a b) (Z.lor c d) = Z.lor (Z.lor (Z.lor a b) c) d.
Proof. now rewrite Z.lor_assoc. Qed.

Lemma discard_tok who tile (ts : bool) : 0 <= who < 4 -> 0 <= tile < 37 ->
  discard2idx who tile ts = Ok (tok_or EST_DISCARD ET_NAKI who (128 * b2z ts + tile)).
Proof.
  intros Hw Ht. unfold discard2idx, passert.
  replace ((0 <=? tile) && (tile <? 37)) with true
    by (symmetry; apply andb_true_intro; split; [apply Z.leb_le | apply Z.ltb_lt]; lia).
  cbn [bind]. f_equal. unfold tok_or. rewrite <- !Z.lor_assoc. do 3 f_equal.
  assert (E : Z.lor (Z.shiftl (b2z ts) 7) tile = 128 * b2z ts + tile).
  { assert (X : all_z 37 (fun t => (Z.lor 128 t =? 128 + t)) = true) by (vm_compute; reflexivity).
    destruct ts; [|reflexivity]. change (Z.shiftl (b2z true) 7) with 128. cbn [b2z].
    apply Z.eqb_eq. exact (all_z_ok _ _ X tile Ht). }
  exact E.
Qed.

Lemma assert17 tok : 0 <= tok < 65536 -> passert (tok <=? Z.shiftl 1 17) = Ok tt.
Proof. intros H. unfold passert. replace (tok <=? Z.shiftl 1 17) with true; [reflexivity|]. symmetry. apply Z.leb_le.
  change (Z.shiftl 1 17) with 131072. lia. Qed.
Lemma assert4 w : 0 <= w < 4 -> passert ((0 <=? w) && (w <? 4)) = Ok tt.
Proof. intros H. unfold passert. replace ((0 <=? w) && (w <? 4)) with true; [reflexivity|].
  symmetry. apply andb_true_intro. split; [apply Z.leb_le | apply Z.ltb_lt]; lia. Qed.

Lemma iff_kind (b : bool) k k' : (b = true <-> Some k = Some k') -> b = kind_eqb k k'.
Proof. intros [H1 H2]. destruct b, k, k'; try reflexivity; (discriminate (H1 eq_refl) || discriminate (H2 eq_refl)). Qed.

Lemma call_tok who c : 0 <= who < 4 -> in_range c ->
  exists i, call_action c = Ok i /\ 0 <= i < 256 /\
    naki2idx who c = Ok (tok_or (if own_turn_call c then EST_DURING else EST_POST) ET_NAKI who i).
Proof.
  intros Hw Hr.
  destruct (spec_kind c) as [k|] eqn:Hk; [|unfold in_range in Hr; rewrite Hk in Hr; destruct Hr].
  pose proof (action_index c k Hr Hk) as A.
  assert (P : forall st i, (st = EST_DURING \/ st = EST_POST) -> 0 <= i < 256 ->
     passert (tok_or st ET_NAKI who i <=? Z.shiftl 1 17) = Ok tt).
  { intros st i Hs Hi. apply assert17.
    destruct (tok_fields st ET_NAKI who i) as (E & _); try (unfold ET_NAKI; lia).
    { destruct Hs as [-> | ->]; cbv; split; congruence. }
    rewrite E. unfold ET_NAKI. destruct Hs as [-> | ->]; unfold EST_DURING, EST_POST; lia. }
  unfold call_action, own_turn_call, naki2idx. rewrite Hk, assert4 by exact Hw. cbn [bind].
  destruct (kind_predicates c) as (P1 & P2 & P3 & P4 & P5). rewrite Hk in P1, P2, P3, P4, P5.
  apply iff_kind in P1, P2, P3, P4, P5.
  assert (Q3 : is_pon c = false -> is_kakan c = kind_eqb k Kakan).
  { intros E. rewrite E in P3. now rewrite andb_true_r in P3. }
  rewrite P1, P2, P4, P5.
  destruct k; cbn [kind_eqb] in *; rewrite ?(Q3 P2); destruct A as [(i & Ei & Bi) _]; exists i; rewrite Ei; cbn [bind];
    (rewrite P; [|auto|lia]); repeat split; cbn [bind]; try reflexivity; lia.
Qed.

Lemma token_inv e tok : legal_event e -> token e = Ok tok ->
  exists st ty w i, tok = tok_or st ty w i /\ 0 <= st < 8 /\ 0 <= ty < 8 /\ 0 <= w < 4 /\ 0 <= i < 256 /\
  match e with
  | EvDiscard who tile ts => st = 1 /\ ty = 2 /\ w = who /\ i = 128 * b2z ts + tile
  | EvCall who c => st = (if own_turn_call c then 2 else 3) /\ ty = 2 /\ w = who /\ call_action c = Ok i
  | EvRiichi who => st = 2 /\ ty = 3 /\ w = who /\ i = 2
  | EvDora tile => st = 4 /\ ty = 4 /\ w = 0 /\ i = tile
  end.
Proof.
  destruct e as [who tile ts|who c|who|tile]; cbn [legal_event token]; intros L E.
  - destruct L as [Lw Lt]. rewrite discard_tok in E by assumption. injection E as <-.
    exists EST_DISCARD, ET_NAKI, who, (128 * b2z ts + tile).
    repeat split; try reflexivity; try (unfold EST_DISCARD, ET_NAKI; lia); destruct ts; cbn [b2z]; lia.
  - destruct L as [Lw Lr]. destruct (call_tok who c Lw Lr) as (i & Ei & Bi & En).
    rewrite En in E. injection E as <-.
    exists (if own_turn_call c then EST_DURING else EST_POST), ET_NAKI, who, i.
    unfold EST_DURING, EST_POST, ET_NAKI. destruct (own_turn_call c); repeat split; auto; lia.
  - unfold reach2idx in E. rewrite assert4 in E by exact L. cbn [bind] in E.
    destruct (tok_fields EST_DURING ET_RIICHI who 2) as (V & _); try (unfold EST_DURING, ET_RIICHI; lia).
    rewrite assert17 in E by (rewrite V; unfold EST_DURING, ET_RIICHI; lia). cbn [bind] in E.
    injection E as <-. exists EST_DURING, ET_RIICHI, who, 2. unfold EST_DURING, ET_RIICHI. repeat split; lia.
  - unfold new_dora2idx, passert in E.
    replace ((0 <=? tile) && (tile <? 37)) with true in E
      by (symmetry; apply andb_true_intro; split; [apply Z.leb_le | apply Z.ltb_lt]; lia).
    cbn [bind] in E.
    assert (V0 : Z.lor (Z.lor (Z.shiftl EST_NEW_DORA 13) (Z.shiftl ET_NEW_DORA 10)) tile = tok_or EST_NEW_DORA ET_NEW_DORA 0 tile).
    { unfold tok_or. change (Z.shiftl 0 8) with 0. now rewrite Z.lor_0_r. }
    rewrite V0 in E. destruct (_ <=? _); [|discriminate E]. cbn [bind] in E. injection E as <-.
    exists EST_NEW_DORA, ET_NEW_DORA, 0, tile. unfold EST_NEW_DORA, ET_NEW_DORA. repeat split; lia.
Qed.

Lemma token_total e : legal_event e -> exists tok, token e = Ok tok.
Proof.
  destruct e as [who tile ts|who c|who|tile]; cbn [legal_event token]; intros L.
  - destruct L. rewrite discard_tok by assumption. eauto.
  - destruct L as [Lw Lr]. destruct (call_tok who c Lw Lr) as (i & _ & _ & ->). eauto.
  - unfold reach2idx. rewrite assert4 by exact L. cbn [bind].
    destruct (tok_fields EST_DURING ET_RIICHI who 2) as (V & _); try (unfold EST_DURING, ET_RIICHI; lia).
    rewrite assert17 by (rewrite V; unfold EST_DURING, ET_RIICHI; lia). cbn [bind]. eauto.
  - assert (X : all_z 37 (fun t => is_ok (new_dora2idx t)) = true) by (vm_compute; reflexivity).
    pose proof (all_z_ok _ _ X tile L) as Y. cbv beta in Y. destruct (new_dora2idx tile); [eauto|discriminate Y].
Qed.

Lemma token_decodes e : legal_event e -> exists tok, token e = Ok tok /\
  match e with
  | EvDiscard who tile ts =>
      enc_state tok = EST_DISCARD /\ enc_player tok = who /\ enc_tile tok = tile /\ enc_tsumogiri tok = b2z ts
  | EvCall who c =>
      enc_state tok = (if own_turn_call c then EST_DURING else EST_POST) /\ enc_type tok = ET_NAKI /\
      enc_player tok = who /\ call_action c = Ok (enc_naki tok)
  | EvRiichi who => enc_state tok = EST_DURING /\ enc_type tok = ET_RIICHI /\ enc_player tok = who /\ enc_naki tok = 2
  | EvDora tile => enc_state tok = EST_NEW_DORA /\ enc_type tok = ET_NEW_DORA /\ enc_tile tok = tile
  end.
Proof.
  intros L. destruct (token_total e L) as [tok E]. exists tok. split; [exact E|].
  destruct (token_inv e tok L E) as (st & ty & w & i & -> & Hst & Hty & Hw & Hi & M).
  destruct (tok_fields st ty w i Hst Hty Hw Hi) as (_ & F1 & F2 & F3 & F4 & F5 & F6).
  destruct e as [who tile ts|who c|who|tile]; cbn [legal_event] in L; destruct M as (-> & -> & -> & M).
  - rewrite F1, F3, F5, F6. subst i. destruct L. repeat split.
    + rewrite Z.add_comm, Z.mul_comm, Z_mod_plus_full. apply Z.mod_small. lia.
    + rewrite Z.add_comm, Z.mul_comm, Z_div_plus_full by lia. rewrite Z.div_small by lia. reflexivity.
  - rewrite F1, F2, F3, F4. destruct (own_turn_call c); auto.
  - rewrite F1, F2, F3, F4. auto.
  - rewrite F1, F2, F5, M. rewrite Z.mod_small by lia. auto.
Qed.

Lemma token_range e tok : legal_event e -> token e = Ok tok -> 0 < tok < 2 ^ 16.
Proof.
  intros L E. destruct (token_inv e tok L E) as (st & ty & w & i & -> & Hst & Hty & Hw & Hi & M).
  destruct (tok_fields st ty w i Hst Hty Hw Hi) as (-> & _). change (2 ^ 16) with 65536.
  destruct e as [who tile ts|who c|who|tile]; destruct M as (-> & -> & _); lia.
Qed.

Lemma token_injective e1 e2 tok : legal_event e1 -> legal_event e2 ->
  token e1 = Ok tok -> token e2 = Ok tok -> same_event e1 e2.
Proof.
  intros L1 L2 E1 E2.
  destruct (token_inv e1 tok L1 E1) as (st & ty & w & i & -> & Hst & Hty & Hw & Hi & M).
  destruct (token_inv e2 _ L2 E2) as (st' & ty' & w' & i' & Et & Hst' & Hty' & Hw' & Hi' & M').
  destruct (tok_fields st ty w i Hst Hty Hw Hi) as (_ & F1 & F2 & F3 & F4 & _).
  destruct (tok_fields st' ty' w' i' Hst' Hty' Hw' Hi') as (_ & F1' & F2' & F3' & F4' & _).
  rewrite Et in F1, F2, F3, F4. rewrite F1 in F1'. rewrite F2 in F2'. rewrite F3 in F3'. rewrite F4 in F4'.
  clear F1 F2 F3 F4 Et E1 E2. subst st' ty' w' i'.
  destruct e1 as [who tile ts|who c|who|tile], e2 as [who2 tile2 ts2|who2 c2|who2|tile2]; cbn [legal_event same_event] in *;
    destruct M as (M1 & M2 & M3 & M4), M' as (N1 & N2 & N3 & N4); subst; try discriminate; auto; try lia;
    try (destruct (own_turn_call c); discriminate); try (destruct (own_turn_call c2); discriminate).
  - destruct ts, ts2; cbn [b2z] in N4; repeat split; try lia.
  - split; [reflexivity|]. split; [|congruence]. destruct (own_turn_call c), (own_turn_call c2); congruence.
Qed.

(** ** C11 *)
Lemma flag_bit g k m : 0 <= k -> m = 2 ^ k -> Z.shiftr (Z.land g m) k = field g k 1.
Proof.
  intros Hk ->. unfold field. rewrite Z.shiftr_land. f_equal.
  rewrite Z.shiftr_div_pow2 by assumption. rewrite Z.div_same; [reflexivity|]. apply Z.pow_nonzero; lia.
Qed.

Lemma game_flags g :
  against_human g = field g 0 1 /\ no_red g = field g 1 1 /\ kansaki g = field g 2 1 /\
  tonnan g = field g 3 1 /\ three_players g = field g 4 1 /\ fast g = field g 6 1 /\
  level g = field g 5 1 + 4 * field g 7 1.
Proof.
  unfold against_human, no_red, kansaki, tonnan, three_players, fast, level.
  rewrite (flag_bit g 1 2), (flag_bit g 2 4), (flag_bit g 3 8), (flag_bit g 4 16), (flag_bit g 6 64)
    by (lia || reflexivity).
  split; [reflexivity|]. do 5 (split; [reflexivity|]).
  rewrite Z.shiftr_land. change (Z.shiftr 160 5) with (Z.lor (Z.shiftl 1 2) 1).
  rewrite Z.land_lor_distr_r.
  assert (E : Z.land (Z.shiftr g 5) (Z.shiftl 1 2) = Z.shiftl (field g 7 1) 2).
  { unfold field. rewrite Z.shiftl_land. change (Z.shiftl (Z.ones 1) 2) with (Z.shiftl 1 2).
    change (Z.shiftl 1 2) with 4. change 4 with (2 ^ 2). rewrite !land_pow2 by lia.
    rewrite Z.shiftr_spec, Z.shiftl_spec, Z.shiftr_spec by lia. reflexivity. }
  rewrite E. rewrite lor_disjoint; [unfold field; change (Z.ones 1) with 1; change (2 ^ 2) with 4; lia | lia |].
  change (Z.land (Z.shiftr g 5) 1) with (field g 5 1). unfold field. rewrite Z.land_ones by lia.
  pose proof (Z.mod_pos_bound (Z.shiftr g 5) (2 ^ 1)). change (2 ^ 1) with 2 in *. change (2 ^ 2) with 4. lia.
Qed.

Lemma field1 g k : field g k 1 = 0 \/ field g k 1 = 1.
Proof.
  assert (E : field g k 1 = Z.shiftr g k mod 2) by (unfold field; now rewrite Z.land_ones by lia).
  rewrite E. pose proof (Z.mod_pos_bound (Z.shiftr g k) 2). lia.
Qed.

Lemma round_counts g n :
  let r := round_info g n in
  (n_rounds g = 4 \/ n_rounds g = 8) /\
  ri_remaining_rounds r = n_rounds g - n /\
  exists a b c d, ri_parent_rounds_remaining r = [a; b; c; d] /\
    a <= b <= c /\ c <= d <= a + 1 /\ a + b + c + d = ri_remaining_rounds r.
Proof.
  cbv zeta. assert (T : tonnan g = 0 \/ tonnan g = 1).
  { destruct (game_flags g) as (_ & _ & _ & -> & _). apply field1. }
  unfold n_rounds. split; [lia|]. split; [reflexivity|].
  unfold round_info. cbn [ri_remaining_rounds ri_parent_rounds_remaining].
  set (m := 4 * (tonnan g + 1) - n). clearbody m.
  change (zrange 4) with [0; 1; 2; 3]. cbn [map].
  exists ((m + 0) / 4), ((m + 1) / 4), ((m + 2) / 4), ((m + 3) / 4). split; [reflexivity|].
  clear T g n.
  pose proof (Z.div_mod (m + 0) 4 ltac:(lia)). pose proof (Z.mod_pos_bound (m + 0) 4 ltac:(lia)).
  pose proof (Z.div_mod (m + 1) 4 ltac:(lia)). pose proof (Z.mod_pos_bound (m + 1) 4 ltac:(lia)).
  pose proof (Z.div_mod (m + 2) 4 ltac:(lia)). pose proof (Z.mod_pos_bound (m + 2) 4 ltac:(lia)).
  pose proof (Z.div_mod (m + 3) 4 ltac:(lia)). pose proof (Z.mod_pos_bound (m + 3) 4 ltac:(lia)).
  lia.
Qed.

(** ** C66 *)
Definition nleqb (l m : list nat) : bool := leqb (map Z.of_nat l) (map Z.of_nat m).
Lemma nleqb_eq l m : nleqb l m = true -> l = m.
Proof.
  unfold nleqb. intros H. apply leqb_eq in H. revert m H.
  induction l as [|a l IH]; intros [|b m] H; cbn in H; try discriminate; [reflexivity|].
  injection H as H1 H2. f_equal; [lia|auto].
Qed.
Definition tile_spec (id : Z) : list nat :=
  if id =? 16 then [4; 34]%nat else if id =? 52 then [13; 35]%nat else if id =? 88 then [22; 36]%nat
  else [Z.to_nat (id / 4)].
Definition chk_tile (id : Z) : bool := match tile2idx id with Ok l => nleqb l (tile_spec id) | Err _ => false end.
Lemma chk_tile_all : all_z 136 chk_tile = true.
Proof. vm_cast_no_check (eq_refl true). Qed.
Lemma tile_index id : 0 <= id < 136 -> tile2idx id = Ok (tile_spec id).
Proof.
  intros H. pose proof (all_z_ok _ _ chk_tile_all id H) as C. unfold chk_tile in C.
  destruct (tile2idx id); [|discriminate C]. f_equal. now apply nleqb_eq.
Qed.
Lemma chk_count_all : forallb (fun k => count_idx k =? nth k REMAINING_TILES 0) (seq 0 37) = true.
Proof. vm_cast_no_check (eq_refl true). Qed.
Lemma tile_counts k : (k < 37)%nat -> count_idx k = nth k REMAINING_TILES 0.
Proof.
  intros H. apply Z.eqb_eq.
  refine (proj1 (forallb_forall _ _) chk_count_all k _). apply in_seq. lia.
Qed.
Lemma tile_out_of_range id : id < -136 \/ 136 <= id -> tile2idx id = Err IndexError.
Proof.
  intros H. unfold tile2idx, py_index. change (Z.of_nat 136) with 136.
  replace ((0 <=? id) && (id <? 136)) with false
    by (symmetry; apply andb_false_iff; destruct H; [left; apply Z.leb_gt | right; apply Z.ltb_ge]; lia).
  replace ((- (136) <=? id) && (id <? 0)) with false
    by (symmetry; apply andb_false_iff; destruct H; [left; apply Z.leb_gt | right; apply Z.ltb_ge]; lia).
  reflexivity.
Qed.
