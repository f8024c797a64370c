(** C01-C08: the meld codec.  Statements only; proofs are in NakiLemmas*.v and NakiExact.v. *)
From Coq Require Import ZArith List Bool Lia.
From Verif Require Import Base Naki SpecMeld NakiLemmas NakiLemmas2 NakiExact.
Import ListNotations.
Open Scope Z_scope.

(** C01.  [kinds c] is the tuple (is_chi, is_pon, is_kakan, is_minkan, is_ankan). *)
Theorem C01_chi_factory_round_trip : forall color number which has_red,
  0 <= color < 3 -> 0 <= number < 7 -> 0 <= which < 3 -> (has_red = true -> 2 <= number <= 4) ->
  exists nk exposed acquired,
    from_chi_info color number which has_red = Ok nk /\
    spec_kind (nk_code nk) = Some Chi /\
    kinds (nk_code nk) = (true, false, false, false, false) /\
    from_who (nk_code nk) = 3 /\
    pattern_chi (nk_code nk) = MkPat color number which has_red exposed (Some acquired) /\
    get_exposed (nk_code nk) = Ok (exposed, Some acquired) /\
    map tile_type (insert_at (Z.to_nat which) acquired exposed) =
      [9 * color + number; 9 * color + number + 1; 9 * color + number + 2] /\
    has_red_five (acquired :: exposed) = has_red /\
    mk_naki (nk_code nk) = Ok nk.
Proof. exact chi_factory. Qed.
Print Assumptions C01_chi_factory_round_trip.
(** The hypotheses are met e.g. by the chi of 3-4-red5 of pinzu on the 4. *)
Example C01_example : exists nk, from_chi_info 1 2 1 true = Ok nk /\ get_exposed (nk_code nk) = Ok ([45; 52], Some 49).
Proof. exists (raw_naki 28719). split; (vm_compute; reflexivity). Qed.

(** C02 *)
Theorem C02_pon_factory_round_trip : forall tile which has_red seat,
  0 <= tile < 34 -> 0 <= which < 2 -> 1 <= seat <= 3 -> (has_red = true -> five_type tile) ->
  exists nk color number exposed acquired,
    from_pon_info tile which has_red seat = Ok nk /\
    spec_kind (nk_code nk) = Some Pon /\
    kinds (nk_code nk) = (false, true, false, false, false) /\
    from_who (nk_code nk) = seat /\
    pattern_pon (nk_code nk) = MkPat color number which has_red exposed (Some acquired) /\
    9 * color + number = tile /\ 0 <= number < 9 /\
    get_exposed (nk_code nk) = Ok (exposed, Some acquired) /\
    insert_at (Z.to_nat which) acquired exposed =
      (if has_red then [4 * tile; 4 * tile + 1; 4 * tile + 2] else [4 * tile + 1; 4 * tile + 2; 4 * tile + 3]) /\
    has_red_five (acquired :: exposed) = has_red /\
    mk_naki (nk_code nk) = Ok nk.
Proof. exact pon_factory. Qed.
Print Assumptions C02_pon_factory_round_trip.
Example C02_pon_example : exists nk, from_pon_info 13 1 true 2 = Ok nk /\ get_exposed (nk_code nk) = Ok ([52; 54], Some 53).
Proof. exists (raw_naki 20586). split; (vm_compute; reflexivity). Qed.

Theorem C02_kakan_factory_round_trip : forall tile which,
  0 <= tile < 34 -> 0 <= which < 2 ->
  exists nk color number e,
    from_kakan_info tile which = Ok nk /\
    spec_kind (nk_code nk) = Some Kakan /\
    kinds (nk_code nk) = (false, false, true, false, false) /\
    pattern_kakan (nk_code nk) = MkPat color number which (five_typeb tile) [e] None /\
    9 * color + number = tile /\ 0 <= number < 9 /\
    get_exposed (nk_code nk) = Ok ([e], None) /\
    tile_type e = tile /\
    red_fiveb e = five_typeb tile && (which =? 0) /\
    from_who (nk_code nk) = 0 /\
    mk_naki (nk_code nk) = Ok nk.
Proof. exact kakan_factory. Qed.
Print Assumptions C02_kakan_factory_round_trip.
Example C02_kakan_example : exists nk, from_kakan_info 4 0 = Ok nk /\ get_exposed (nk_code nk) = Ok ([16], None).
Proof. exists (raw_naki 6160). split; (vm_compute; reflexivity). Qed.

Theorem C02_minkan_factory_round_trip : forall tile seat which,
  0 <= tile < 34 -> 1 <= seat <= 3 -> 0 <= which < 2 ->
  exists nk color number exposed acquired,
    from_minkan_info tile seat which = Ok nk /\
    spec_kind (nk_code nk) = Some Minkan /\
    kinds (nk_code nk) = (false, false, false, true, false) /\
    from_who (nk_code nk) = seat /\
    pattern_minkan (nk_code nk) = MkPat color number which (five_typeb tile) exposed (Some acquired) /\
    9 * color + number = tile /\ 0 <= number < 9 /\
    get_exposed (nk_code nk) = Ok (exposed, Some acquired) /\
    acquired = 4 * tile + which /\
    insert_at (Z.to_nat which) acquired exposed = [4 * tile; 4 * tile + 1; 4 * tile + 2; 4 * tile + 3].
Proof. exact minkan_factory. Qed.
Print Assumptions C02_minkan_factory_round_trip.
Example C02_minkan_example : exists nk, from_minkan_info 22 3 0 = Ok nk /\ get_exposed (nk_code nk) = Ok ([89; 90; 91], Some 88).
Proof. exists (raw_naki 22531). split; (vm_compute; reflexivity). Qed.

Theorem C02_ankan_factory_round_trip : forall tile,
  0 <= tile < 34 ->
  exists nk color number exposed,
    from_ankan_info tile = Ok nk /\
    spec_kind (nk_code nk) = Some Ankan /\
    kinds (nk_code nk) = (false, false, false, false, true) /\
    from_who (nk_code nk) = 0 /\
    pattern_ankan (nk_code nk) = MkPat color number 0 (five_typeb tile) exposed None /\
    9 * color + number = tile /\ 0 <= number < 9 /\
    get_exposed (nk_code nk) = Ok (exposed, None) /\
    exposed = [4 * tile; 4 * tile + 1; 4 * tile + 2; 4 * tile + 3] /\
    mk_naki (nk_code nk) = Ok nk.
Proof. exact ankan_factory. Qed.
Print Assumptions C02_ankan_factory_round_trip.
Example C02_ankan_example : exists nk, from_ankan_info 33 = Ok nk /\ get_exposed (nk_code nk) = Ok ([132; 133; 134; 135], None).
Proof. exists (raw_naki 33792). split; (vm_compute; reflexivity). Qed.

(** C03: for every integer. *)
Theorem C03_classification : forall c,
  (spec_kind c <> None -> (exists nk, mk_naki c = Ok nk) /\ (exists e, get_exposed c = Ok e)) /\
  (spec_kind c = None -> mk_naki c = Err ValueError /\ get_exposed c = Err ValueError).
Proof. exact classify. Qed.
Print Assumptions C03_classification.

Theorem C03_kind_predicates : forall c,
  (is_chi c = true <-> spec_kind c = Some Chi) /\
  (is_pon c = true <-> spec_kind c = Some Pon) /\
  (is_kakan c && negb (is_pon c) = true <-> spec_kind c = Some Kakan) /\
  (is_minkan c = true <-> spec_kind c = Some Minkan) /\
  (is_ankan c = true <-> spec_kind c = Some Ankan).
Proof. exact kind_predicates. Qed.
Print Assumptions C03_kind_predicates.
Example C03_accepts : spec_kind (-1) = Some Chi /\ spec_kind 51306 = Some Pon /\ spec_kind 65555 = Some Kakan.
Proof. repeat split; (vm_compute; reflexivity). Qed.
Example C03_rejects : spec_kind 32 = None /\ mk_naki 32 = Err ValueError.
Proof. split; (vm_compute; reflexivity). Qed.

(** C04 *)
Theorem C04_normalisation : forall c nk exposed acquired,
  mk_naki c = Ok nk -> get_exposed c = Ok (exposed, acquired) ->
  mk_naki (nk_conv nk) = Ok (raw_naki (nk_conv nk)) /\
  spec_kind (nk_conv nk) = spec_kind c /\
  from_who (nk_conv nk) = from_who c /\
  exists exposed' acquired', get_exposed (nk_conv nk) = Ok (exposed', acquired') /\
    map tile_type exposed' = map tile_type exposed /\
    option_map tile_type acquired' = option_map tile_type acquired.
Proof. exact normalise. Qed.
Print Assumptions C04_normalisation.
(** A pon of fives with the red five in hand: the code really changes. *)
Example C04_example : exists nk, mk_naki 21034 = Ok nk /\ nk_conv nk <> 21034 /\ exists e, get_exposed 21034 = Ok e.
Proof. exists (MkNaki 21034 20586). split; [vm_compute; reflexivity|]. split; [cbn; lia|]. exists ([52; 54], Some 55). vm_compute; reflexivity. Qed.

(** C05, true part: every kind except added kans keeps the red-five information ... *)
Theorem C05_red_kept_partial : forall c nk exposed acquired exposed' acquired',
  mk_naki c = Ok nk -> spec_kind c <> Some Kakan ->
  get_exposed c = Ok (exposed, acquired) -> get_exposed (nk_conv nk) = Ok (exposed', acquired') ->
  red_signature exposed' acquired' = red_signature exposed acquired.
Proof. exact red_preserved. Qed.
Print Assumptions C05_red_kept_partial.
(** ... so calls that compare equal agree in everything observable. *)
Theorem C05_equal_codes_agree_partial : forall c1 c2 nk1 nk2 ex1 a1 ex2 a2,
  mk_naki c1 = Ok nk1 -> mk_naki c2 = Ok nk2 -> nk_conv nk1 = nk_conv nk2 ->
  spec_kind c1 <> Some Kakan ->
  get_exposed c1 = Ok (ex1, a1) -> get_exposed c2 = Ok (ex2, a2) ->
  spec_kind c1 = spec_kind c2 /\ from_who c1 = from_who c2 /\
  map tile_type ex1 = map tile_type ex2 /\ option_map tile_type a1 = option_map tile_type a2 /\
  red_signature ex1 a1 = red_signature ex2 a2.
Proof. exact conv_equal_agree. Qed.
Print Assumptions C05_equal_codes_agree_partial.
(** Chi codes have a unique normal form: the one the factory builds. *)
Theorem C05_chi_normal_form_partial : forall c nk,
  mk_naki c = Ok nk -> spec_kind c = Some Chi -> unused_clear c -> in_range c ->
  let p := pattern_chi c in
  exists nk', from_chi_info (p_color p) (p_number p) (p_which p) (p_red p) = Ok nk' /\
    nk_conv nk = nk_conv nk' - 3 + from_who c.
Proof. exact chi_canonical. Qed.
Print Assumptions C05_chi_normal_form_partial.
(** Exactly when two calls read from a log compare equal: they agree in everything that can
    be seen and, for a triplet without the red five, in the place of the claimed copy. *)
Theorem C05_equal_exact_partial : forall c1 c2 nk1 nk2 ex1 a1 ex2 a2,
  unused_clear c1 -> unused_clear c2 -> in_range c1 -> in_range c2 ->
  mk_naki c1 = Ok nk1 -> mk_naki c2 = Ok nk2 -> get_exposed c1 = Ok (ex1, a1) -> get_exposed c2 = Ok (ex2, a2) ->
  spec_kind c1 <> Some Kakan ->
  (nk_conv nk1 = nk_conv nk2 <->
   spec_kind c1 = spec_kind c2 /\ from_who c1 = from_who c2 /\ map tile_type ex1 = map tile_type ex2 /\
   option_map tile_type a1 = option_map tile_type a2 /\ red_signature ex1 a1 = red_signature ex2 a2 /\
   (spec_kind c1 = Some Pon -> red_signature ex1 a1 = (false, false) ->
    option_map (claim_place ex1) a1 = option_map (claim_place ex2) a2)).
Proof. exact calls_equal. Qed.
Print Assumptions C05_equal_exact_partial.
(** Two pons of 5m that claim different copies but both take the red five from the hand. *)
Example C05_equal_example : unused_clear 6761 /\ unused_clear 7273 /\ in_range 6761 /\ in_range 7273 /\
  spec_kind 6761 = Some Pon /\ exists ex1 a1 ex2 a2, get_exposed 6761 = Ok (ex1, Some a1) /\ get_exposed 7273 = Ok (ex2, Some a2) /\
  a1 <> a2 /\ red_signature ex1 (Some a1) = (true, false) /\ red_signature ex2 (Some a2) = (true, false) /\
  option_map nk_conv (match mk_naki 6761 with Ok x => Some x | _ => None end) = option_map nk_conv (match mk_naki 7273 with Ok x => Some x | _ => None end).
Proof.
  do 2 (split; [split; [lia|vm_compute; auto]|]). do 2 (split; [split; vm_compute; reflexivity|]).
  split; [reflexivity|]. exists [16; 18], 17, [16; 17], 18. repeat split; (vm_compute; first [reflexivity|discriminate]).
Qed.
(** Added kans compare equal exactly if they extend the same pon (source seat, tile type,
    place of the tile claimed for it); the added copy does not count. *)
Theorem C05_kakan_equal_exact : forall c1 c2 nk1 nk2,
  unused_clear c1 -> unused_clear c2 -> in_range c1 -> in_range c2 ->
  mk_naki c1 = Ok nk1 -> mk_naki c2 = Ok nk2 -> spec_kind c1 = Some Kakan -> spec_kind c2 = Some Kakan ->
  (nk_conv nk1 = nk_conv nk2 <-> from_who c1 = from_who c2 /\ field c1 9 7 = field c2 9 7).
Proof. exact kakan_equal. Qed.
Print Assumptions C05_kakan_equal_exact.
Example C05_kakan_example : unused_clear 6161 /\ in_range 6161 /\ spec_kind 6161 = Some Kakan /\ get_exposed 6161 = Ok ([16], None) /\ get_exposed 6193 = Ok ([17], None).
Proof. split; [split; [lia|vm_compute; auto]|]. repeat split; vm_compute; reflexivity. Qed.
(** What normalisation does to an added kan. *)
Theorem C05_kakan_red_after_normalisation : forall c nk exposed' acquired',
  mk_naki c = Ok nk -> spec_kind c = Some Kakan ->
  get_exposed (nk_conv nk) = Ok (exposed', acquired') ->
  has_red_five exposed' = five_typeb (field c 9 7 / 3) && (field c 9 7 mod 3 =? 0).
Proof. exact kakan_red_after_norm. Qed.
Print Assumptions C05_kakan_red_after_normalisation.
(** Refutation 1: an added kan of 5m whose added tile is not the red five (the
    red five is in the pon) is normalised to one that adds the red five. *)
Theorem C05_refuted : exists c nk ex ex',
  in_range c /\ unused_clear c /\ mk_naki c = Ok nk /\
  get_exposed c = Ok (ex, None) /\ get_exposed (nk_conv nk) = Ok (ex', None) /\
  has_red_five ex = false /\ has_red_five ex' = true.
Proof.
  exists 6193, (MkNaki 6193 6161), [17], [16].
  split; [vm_compute; reflexivity|]. split; [split; [lia|vm_compute; auto]|].
  repeat split; (vm_compute; reflexivity).
Qed.
Print Assumptions C05_refuted.
(** Refutation 2: two pons of 1m from the same seat that agree in everything but
    the internal claim position do not compare equal. *)
Theorem C05_refuted_distinct : exists c1 c2 nk1 nk2 ex1 a1 ex2 a2,
  unused_clear c1 /\ unused_clear c2 /\ mk_naki c1 = Ok nk1 /\ mk_naki c2 = Ok nk2 /\
  get_exposed c1 = Ok (ex1, a1) /\ get_exposed c2 = Ok (ex2, a2) /\
  spec_kind c1 = Some Pon /\ spec_kind c2 = Some Pon /\ from_who c1 = from_who c2 /\
  map tile_type ex1 = map tile_type ex2 /\ option_map tile_type a1 = option_map tile_type a2 /\
  red_signature ex1 a1 = red_signature ex2 a2 /\ nk_conv nk1 <> nk_conv nk2.
Proof.
  exists 9, 521, (raw_naki 9), (raw_naki 521), [2; 3], (Some 1), [1; 3], (Some 2).
  split; [split; [lia|vm_compute; auto]|]. split; [split; [lia|vm_compute; auto]|].
  repeat split; try (vm_compute; reflexivity). cbn; lia.
Qed.
Print Assumptions C05_refuted_distinct.

(** C06 *)
Theorem C06_melds_possible : forall c exposed acquired,
  in_range c -> get_exposed c = Ok (exposed, acquired) ->
  exists k, spec_kind c = Some k /\ possible_meld k exposed acquired.
Proof. exact meld_possible. Qed.
Print Assumptions C06_melds_possible.
Example C06_example : in_range 21034 /\ in_range 15 /\ in_range (-65536 + 256) /\ ~ in_range 65535.
Proof. repeat split; (vm_compute; easy). Qed.

(** C07 *)
Theorem C07_action_index_range : forall c k,
  in_range c -> spec_kind c = Some k ->
  match k with
  | Ankan | Kakan =>
      (exists i, get_during_turn_filter_idx c = Ok i /\ 3 <= i <= 70) /\
      get_post_turn_filter_idx c = Err ZeroDivisionError
  | Chi | Pon | Minkan =>
      (exists i, get_post_turn_filter_idx c = Ok i /\ 2 <= i <= 153) /\
      get_during_turn_filter_idx c = Err ZeroDivisionError
  end.
Proof. exact action_index. Qed.
Print Assumptions C07_action_index_range.
Example C07_example : get_during_turn_filter_idx (33 * 4 * 256) = Ok 36 /\ get_post_turn_filter_idx (33 * 4 * 256 + 1) = Ok 153.
Proof. split; (vm_compute; reflexivity). Qed.

(** C08, true parts: the self-turn head is injective on (kind, tile type), the
    other head on (kind, tile types, claimed position) for calls that do not
    expose the red five in a chi. *)
Theorem C08_during_injective : forall c1 c2 i,
  in_range c1 -> in_range c2 ->
  get_during_turn_filter_idx c1 = Ok i -> get_during_turn_filter_idx c2 = Ok i ->
  exists k t ex1 a1 ex2 a2, spec_kind c1 = Some k /\ spec_kind c2 = Some k /\
    get_exposed c1 = Ok (ex1, a1) /\ get_exposed c2 = Ok (ex2, a2) /\
    (forall x, In x ex1 -> tile_type x = t) /\ (forall x, In x ex2 -> tile_type x = t).
Proof. exact during_index_injective. Qed.
Print Assumptions C08_during_injective.
Theorem C08_post_injective_partial : forall c1 c2 i ex1 a1 ex2 a2,
  in_range c1 -> in_range c2 -> red_from_hand c1 = false -> red_from_hand c2 = false ->
  get_post_turn_filter_idx c1 = Ok i -> get_post_turn_filter_idx c2 = Ok i ->
  get_exposed c1 = Ok (ex1, a1) -> get_exposed c2 = Ok (ex2, a2) ->
  spec_kind c1 = spec_kind c2 /\ map tile_type ex1 = map tile_type ex2 /\
  option_map tile_type a1 = option_map tile_type a2.
Proof. exact post_index_injective. Qed.
Print Assumptions C08_post_injective_partial.
Example C08_example : in_range 15 /\ red_from_hand 15 = false /\ get_post_turn_filter_idx 15 = Ok 2.
Proof. repeat split; (vm_compute; easy). Qed.
(** Exactly which reactions share an index: [reads_as] says what a reaction is, [same_slot]
    lists the collisions (SpecMeld.v). *)
Theorem C08_post_exact : forall c1 c2 i1 i2 ex1 a1 ex2 a2 k1 k2 r1 r2, in_range c1 -> in_range c2 ->
  get_post_turn_filter_idx c1 = Ok i1 -> get_post_turn_filter_idx c2 = Ok i2 ->
  get_exposed c1 = Ok (ex1, Some a1) -> get_exposed c2 = Ok (ex2, Some a2) -> spec_kind c1 = Some k1 -> spec_kind c2 = Some k2 ->
  reads_as k1 ex1 a1 r1 -> reads_as k2 ex2 a2 r2 ->
  (i1 = i2 <-> r1 = r2 \/ same_slot r1 r2 \/ same_slot r2 r1).
Proof. exact post_exact. Qed.
Print Assumptions C08_post_exact.
(** Every call with an index is such a reaction. *)
Theorem C08_post_reaction : forall c i ex a k, in_range c -> get_post_turn_filter_idx c = Ok i -> get_exposed c = Ok (ex, a) -> spec_kind c = Some k ->
  exists b r, a = Some b /\ reads_as k ex b r.
Proof. intros c i ex a k R I G K. destruct (post_reaction c i ex a k R I G K) as (b & r & A & B & _). eauto. Qed.
Print Assumptions C08_post_reaction.
(** Refutation 1: chi of red5-6-7m on the 6 and on the 7 share an index. *)
Theorem C08_refuted_same_suit : exists n1 n2 i,
  from_chi_info 0 4 1 true = Ok n1 /\ from_chi_info 0 4 2 true = Ok n2 /\
  get_post_turn_filter_idx (nk_code n1) = Ok i /\ get_post_turn_filter_idx (nk_code n2) = Ok i.
Proof. exists (raw_naki 13479), (raw_naki 14503), 74. repeat split; (vm_compute; reflexivity). Qed.
Print Assumptions C08_refuted_same_suit.
(** Refutation 2: a chi of souzu and a pon of manzu share an index. *)
Theorem C08_refuted_chi_pon : exists n1 n2 i,
  from_chi_info 2 3 0 true = Ok n1 /\ from_pon_info 0 0 false 1 = Ok n2 /\
  get_post_turn_filter_idx (nk_code n1) = Ok i /\ get_post_turn_filter_idx (nk_code n2) = Ok i.
Proof. exists (raw_naki 52367), (raw_naki 9), 83. repeat split; (vm_compute; reflexivity). Qed.
Print Assumptions C08_refuted_chi_pon.
(** Refutation 3: pon of fives with and without the red five share an index. *)
Theorem C08_refuted_red_pon : exists n1 n2 i,
  from_pon_info 4 1 true 1 = Ok n1 /\ from_pon_info 4 0 false 1 = Ok n2 /\
  get_post_turn_filter_idx (nk_code n1) = Ok i /\ get_post_turn_filter_idx (nk_code n2) = Ok i.
Proof. exists (raw_naki 6761), (raw_naki 6153), 87. repeat split; (vm_compute; reflexivity). Qed.
Print Assumptions C08_refuted_red_pon.
