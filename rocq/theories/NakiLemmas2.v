(** More statements about meld codes: normalisation, physical plausibility, action indices. *)
From Coq Require Import ZArith List Bool Lia.
From Verif Require Import Base Naki SpecMeld NakiProofs NakiLemmas NakiCore.
Import ListNotations.
Open Scope Z_scope.

Lemma mk_naki_inv c nk : mk_naki c = Ok nk ->
  exists v, clean (lo c) = Ok v /\ nk = MkNaki c (65536 * hi c + v).
Proof.
  unfold mk_naki. rewrite clean_lo. destruct (clean (lo c)) as [v|]; cbn; [|easy].
  intros H. injection H as <-. eauto.
Qed.

Lemma clean_range c v : clean (lo c) = Ok v -> 0 <= v < 65536.
Proof.
  intros E. pose proof (sweep16 _ chk_norm_all _ (lo_range c)) as H. unfold chk_norm in H.
  rewrite E in H. unfold_and H. lia.
Qed.

Lemma normalise c nk ex a :
  mk_naki c = Ok nk -> get_exposed c = Ok (ex, a) ->
  mk_naki (nk_conv nk) = Ok (raw_naki (nk_conv nk)) /\
  spec_kind (nk_conv nk) = spec_kind c /\
  from_who (nk_conv nk) = from_who c /\
  exists ex' a', get_exposed (nk_conv nk) = Ok (ex', a') /\
    map tile_type ex' = map tile_type ex /\ option_map tile_type a' = option_map tile_type a.
Proof.
  intros Hc He. apply mk_naki_inv in Hc as (v & Ev & ->). cbn [nk_conv].
  rewrite get_exposed_lo in He.
  pose proof (sweep16 _ chk_norm_all _ (lo_range c)) as H. unfold chk_norm in H.
  rewrite Ev in H. unfold_and H.
  destruct (lo_recompose (hi c) v ltac:(lia)) as [El Eh].
  unfold mk_naki. rewrite clean_lo, get_exposed_lo.
  rewrite (spec_kind_lo (65536 * hi c + v)), (from_who_lo (65536 * hi c + v)), El, Eh.
  destruct (clean v) as [v2|] eqn:Ev2; [|easy]. cbn in K2. apply Z.eqb_eq in K2. subst v2.
  rewrite He in K. destruct (get_exposed v) as [[ex' a']|] eqn:Ee; [|easy].
  apply ex_eqb_eq in K. unfold types_of in K. cbn in K. injection K as Ka Kb.
  split; [|split; [|split]].
  - reflexivity.
  - rewrite K1. symmetry. apply spec_kind_lo.
  - rewrite (from_who_lo c). lia.
  - exists ex', a'. auto.
Qed.

(** *** Red fives under normalisation *)
Definition sigb (a b : bool * bool) : bool := Bool.eqb (fst a) (fst b) && Bool.eqb (snd a) (snd b).
Lemma sigb_eq a b : sigb a b = true -> a = b.
Proof.
  destruct a, b. unfold sigb. cbn. intros H. apply andb_prop in H as [H1 H2].
  apply eqb_prop in H1, H2. now subst.
Qed.
Definition chk_red r : bool :=
  match clean r, get_exposed r with
  | Ok v, Ok (ex, a) =>
    match get_exposed v with
    | Ok (ex', a') =>
      match spec_kind r with
      | Some Kakan =>
          (* the added tile is the red five after normalisation iff the tile is a
             five and the claim position field is 0, whatever the real tile was *)
          Bool.eqb (has_red_five ex') (five_typeb (field r 9 7 / 3) && (field r 9 7 mod 3 =? 0))
      | _ => sigb (red_signature ex' a') (red_signature ex a)
      end
    | _ => false
    end
  | _, _ => true
  end.
Lemma chk_red_all : sweep 16 chk_red = true.
Proof. vm_cast_no_check (eq_refl true). Qed.

Lemma red_preserved c nk ex a ex' a' :
  mk_naki c = Ok nk -> spec_kind c <> Some Kakan ->
  get_exposed c = Ok (ex, a) -> get_exposed (nk_conv nk) = Ok (ex', a') ->
  red_signature ex' a' = red_signature ex a.
Proof.
  intros Hc Hk He He'. apply mk_naki_inv in Hc as (v & Ev & ->). cbn [nk_conv] in He'.
  rewrite get_exposed_lo in He, He'.
  rewrite (proj1 (lo_recompose (hi c) v (clean_range _ _ Ev))) in He'.
  pose proof (sweep16 _ chk_red_all _ (lo_range c)) as H. unfold chk_red in H.
  rewrite Ev, He, He' in H. rewrite spec_kind_lo in Hk.
  destruct (spec_kind (lo c)) as [[]|]; first [now apply sigb_eq | congruence].
Qed.

Lemma kakan_red_after_norm c nk ex' a' :
  mk_naki c = Ok nk -> spec_kind c = Some Kakan ->
  get_exposed (nk_conv nk) = Ok (ex', a') ->
  has_red_five ex' = five_typeb (field c 9 7 / 3) && (field c 9 7 mod 3 =? 0).
Proof.
  intros Hc Hk He'. apply mk_naki_inv in Hc as (v & Ev & ->). cbn [nk_conv] in He'.
  rewrite get_exposed_lo in He'.
  rewrite (proj1 (lo_recompose (hi c) v (clean_range _ _ Ev))) in He'.
  pose proof (sweep16 _ chk_red_all _ (lo_range c)) as H. unfold chk_red in H.
  rewrite spec_kind_lo in Hk. rewrite Ev, He', Hk in H.
  rewrite !(field_lo c) by lia.
  destruct (classify (lo c)) as [Cl _]. destruct (Cl ltac:(congruence)) as [_ [[ex a] Ee]].
  rewrite Ee in H. now apply eqb_prop.
Qed.

(** Two calls (other than added kans) whose comparison codes are equal agree in
    kind, source seat, tile types, claimed position and use of the red five. *)
Lemma conv_equal_agree c1 c2 nk1 nk2 ex1 a1 ex2 a2 :
  mk_naki c1 = Ok nk1 -> mk_naki c2 = Ok nk2 -> nk_conv nk1 = nk_conv nk2 ->
  spec_kind c1 <> Some Kakan ->
  get_exposed c1 = Ok (ex1, a1) -> get_exposed c2 = Ok (ex2, a2) ->
  spec_kind c1 = spec_kind c2 /\ from_who c1 = from_who c2 /\
  map tile_type ex1 = map tile_type ex2 /\ option_map tile_type a1 = option_map tile_type a2 /\
  red_signature ex1 a1 = red_signature ex2 a2.
Proof.
  intros H1 H2 E Hk He1 He2.
  destruct (normalise _ _ _ _ H1 He1) as (_ & S1 & F1 & ex' & a' & G1 & T1 & A1).
  destruct (normalise _ _ _ _ H2 He2) as (_ & S2 & F2 & ex'' & a'' & G2 & T2 & A2).
  assert (Hk2 : spec_kind c2 <> Some Kakan) by congruence.
  pose proof (red_preserved _ _ _ _ _ _ H1 Hk He1 G1) as R1.
  pose proof (red_preserved _ _ _ _ _ _ H2 Hk2 He2 G2) as R2.
  rewrite E, G2 in G1. injection G1 as -> ->. repeat split; congruence.
Qed.

(** A chi read from a log with no stray bits normalises to the code the chi
    factory builds from its suit, start, claimed position and red flag, up to
    the source seat. *)
Definition chk_canon_chi r : bool :=
  implb (okind_eqb (spec_kind r) (Some Chi) && (field r 9 1 =? 0) && (field r 10 6 <? 63))
  match clean r with
  | Ok v =>
    let p := pattern_chi r in
    match from_chi_info (p_color p) (p_number p) (p_which p) (p_red p) with
    | Ok nk => v =? nk_code nk - 3 + field r 0 2
    | Err _ => false
    end
  | Err _ => false
  end.
Lemma chk_canon_chi_all : sweep 16 chk_canon_chi = true.
Proof. vm_cast_no_check (eq_refl true). Qed.

Lemma from_chi_conv c n w r nk : from_chi_info c n w r = Ok nk -> nk_conv nk = nk_code nk.
Proof.
  unfold from_chi_info. destruct r.
  - destruct (one_shl _); unfold bind; intros F; inversion F; reflexivity.
  - intros F; inversion F; reflexivity.
Qed.

Lemma chi_canonical c nk :
  mk_naki c = Ok nk -> spec_kind c = Some Chi -> unused_clear c -> in_range c ->
  let p := pattern_chi c in
  exists nk', from_chi_info (p_color p) (p_number p) (p_which p) (p_red p) = Ok nk' /\
    nk_conv nk = nk_conv nk' - 3 + from_who c.
Proof.
  intros Hc Hk Hu Hr p. unfold unused_clear in Hu. unfold in_range in Hr. rewrite Hk in Hu, Hr.
  destruct Hu as [B U].
  pose proof (sweep16 _ chk_canon_chi_all c B) as H. unfold chk_canon_chi in H.
  rewrite Hk, U in H. apply Z.ltb_lt in Hr. rewrite Hr in H. cbn [okind_eqb kind_eqb andb Z.eqb implb] in H.
  unfold mk_naki in Hc. destruct (clean c) as [v|]; [|easy]. injection Hc as <-.
  fold p in H. destruct (from_chi_info _ _ _ _) as [nk'|] eqn:F; [|easy].
  apply Z.eqb_eq in H. exists nk'. split; [reflexivity|].
  assert (nk_conv nk' = nk_code nk').
  { exact (from_chi_conv _ _ _ _ _ F). }
  cbn [nk_conv]. rewrite H. unfold from_who, field.
  rewrite H0, Z.shiftr_0_r. reflexivity.
Qed.

(** *** Physical plausibility *)
Fixpoint nodupb (l : list Z) : bool :=
  match l with [] => true | x :: r => negb (zmem x r) && nodupb r end.
Lemma zmem_In x l : zmem x l = true <-> In x l.
Proof.
  unfold zmem. rewrite existsb_exists. split.
  - intros (y & Hy & E). apply Z.eqb_eq in E. now subst.
  - intros H. exists x. split; [assumption | apply Z.eqb_refl].
Qed.
Lemma nodupb_ok l : nodupb l = true -> NoDup l.
Proof.
  induction l; cbn; intros H; constructor; apply andb_prop in H as [H1 H2]; auto.
  intros Hi. apply zmem_In in Hi. rewrite Hi in H1. discriminate.
Qed.
Definition valid_idb (x : Z) := (0 <=? x) && (x <? 136).
Lemma forall_valid l : forallb valid_idb l = true -> Forall valid_id l.
Proof.
  rewrite forallb_forall, Forall_forall. intros H x Hx. specialize (H x Hx).
  unfold valid_idb in H. apply andb_prop in H as [H1 H2].
  apply Z.leb_le in H1. apply Z.ltb_lt in H2. split; assumption.
Qed.
Definition in_rangeb (c : Z) : bool :=
  match spec_kind c with
  | Some Chi => field c 10 6 <? 63
  | Some Pon => (field c 4 1 =? 0) && (field c 9 7 <? 102)
  | Some Kakan => field c 9 7 <? 102
  | Some Minkan | Some Ankan => field c 8 8 <? 136
  | None => false
  end.
Lemma in_rangeb_ok c : in_range c -> in_rangeb (lo c) = true.
Proof.
  unfold in_range, in_rangeb. rewrite <- spec_kind_lo, <- !(field_lo c) by lia.
  destruct (spec_kind c) as [[]|]; intros H; try (now apply Z.ltb_lt); [|easy].
  destruct H as [H1 H2]. rewrite H1. now apply Z.ltb_lt.
Qed.
Lemma in_rangeb_core r : in_rangeb (core r) = in_rangeb r.
Proof.
  unfold in_rangeb. rewrite spec_kind_core. pose proof (core_fields r) as F.
  destruct (spec_kind r) as [[]|] eqn:E; try reflexivity.
  - now destruct F as (-> & _).
  - now destruct F as (-> & -> & _).
  - now destruct F as (-> & _).
  - now rewrite F.
  - now rewrite F.
Qed.
Definition chk_shape r : bool :=
  implb (in_rangeb r)
  match get_exposed r, spec_kind r with
  | Ok (ex, a), Some k =>
    let tiles := all_tiles ex a in
    nodupb tiles && forallb valid_idb tiles &&
    match k with
    | Chi => match a with None => false | Some _ =>
        let s := field r 10 6 / 21 in let n := (field r 10 6 / 3) mod 7 in
        let w := field r 10 6 mod 3 in
        (0 <=? s) && (s <? 3) && (0 <=? n) && (n <? 7) &&
        leqb (map tile_type tiles) ([9 * s + n + w] ++ 
           map (fun i => 9 * s + n + i) (if w =? 0 then [1; 2] else if w =? 1 then [0; 2] else [0; 1])) &&
        (0 <=? w) && (w <? 3) end
    | Pon => match a with None => false | Some _ =>
        let t := field r 9 7 / 3 in (0 <=? t) && (t <? 34) && leqb (map tile_type tiles) [t; t; t] end
    | Kakan => match a with Some _ => false | None =>
        let t := field r 9 7 / 3 in (0 <=? t) && (t <? 34) && leqb (map tile_type tiles) [t] end
    | Minkan => match a with None => false | Some _ =>
        let t := field r 8 8 / 4 in (0 <=? t) && (t <? 34) && leqb (map tile_type tiles) [t; t; t; t] end
    | Ankan => match a with Some _ => false | None =>
        let t := field r 8 8 / 4 in (0 <=? t) && (t <? 34) && leqb (map tile_type tiles) [t; t; t; t] end
    end
  | _, _ => false
  end.
Lemma chk_shape_core_all : core_sweep chk_shape = true.
Proof. vm_cast_no_check (eq_refl true). Qed.
Lemma chk_shape_at r : chk_shape r = true.
Proof.
  rewrite <- (core_sweep_ok _ chk_shape_core_all r). unfold chk_shape.
  destruct (core_tiles r) as (T1 & T2 & T3 & _).
  rewrite in_rangeb_core, spec_kind_core, T1.
  pose proof (core_fields r) as F.
  destruct (spec_kind r) as [[]|] eqn:E; try reflexivity.
  - now destruct F as (-> & _).
  - now destruct F as (-> & _).
  - now destruct F as (-> & _).
  - now rewrite F.
  - now rewrite F.
Qed.

Lemma same_type_forall l t ts : map tile_type l = ts -> Forall (eq t) ts -> Forall (fun x => tile_type x = t) l.
Proof.
  intros <- H. rewrite Forall_map in H. revert H. apply Forall_impl. congruence.
Qed.

Lemma meld_possible c ex a :
  in_range c -> get_exposed c = Ok (ex, a) ->
  exists k, spec_kind c = Some k /\ possible_meld k ex a.
Proof.
  intros Hr He. apply in_rangeb_ok in Hr.
  pose proof (chk_shape_at (lo c)) as H. unfold chk_shape in H.
  rewrite Hr in H. cbn [implb] in H. rewrite get_exposed_lo in He. rewrite He in H.
  rewrite spec_kind_lo. destruct (spec_kind (lo c)) as [k|]; [|easy].
  exists k. split; [reflexivity|].
  cbv zeta in H.
  apply andb_prop in H as [H Hk]. apply andb_prop in H as [H1 H2].
  apply nodupb_ok in H1. apply forall_valid in H2.
  unfold possible_meld. split; [assumption|]. split; [assumption|].
  destruct k.
  - destruct a as [a|]; [|easy]. unfold_and Hk.
    apply (f_equal (@length Z)) in K1 as L. rewrite map_length in L.
    split; [easy|]. split.
    { rewrite L. destruct (_ =? 0); [reflexivity|]. destruct (_ =? 1); reflexivity. }
    exists (field (lo c) 10 6 / 21), ((field (lo c) 10 6 / 3) mod 7).
    split; [lia|]. split; [lia|]. intros t. rewrite K1. cbn [app In].
    set (w := field (lo c) 10 6 mod 3) in *.
    assert (C : w = 0 \/ w = 1 \/ w = 2) by lia.
    destruct C as [-> | [-> | ->]]; cbn [Z.eqb map In Pos.eqb]; split; intros; lia.
  - destruct a as [a|]; [|easy]. unfold_and Hk. split; [easy|].
    split; [apply (f_equal (@length Z)) in K; rewrite map_length in K; exact K|].
    exists (field (lo c) 9 7 / 3). split; [lia|]. eapply same_type_forall; [exact K|]. repeat constructor.
  - destruct a as [a|]; [easy|]. unfold_and Hk. split; [easy|].
    split; [apply (f_equal (@length Z)) in K; rewrite map_length in K; exact K|].
    exists (field (lo c) 9 7 / 3). split; [lia|]. eapply same_type_forall; [exact K|]. repeat constructor.
  - destruct a as [a|]; [|easy]. unfold_and Hk. split; [easy|].
    split; [apply (f_equal (@length Z)) in K; rewrite map_length in K; exact K|].
    exists (field (lo c) 8 8 / 4). split; [lia|]. eapply same_type_forall; [exact K|]. repeat constructor.
  - destruct a as [a|]; [easy|]. unfold_and Hk. split; [easy|].
    split; [apply (f_equal (@length Z)) in K; rewrite map_length in K; exact K|].
    exists (field (lo c) 8 8 / 4). split; [lia|]. eapply same_type_forall; [exact K|]. repeat constructor.
Qed.

(** *** Action indices *)
Definition chk_idx r : bool :=
  implb (in_rangeb r)
  match spec_kind r with
  | Some Ankan =>
      match get_during_turn_filter_idx r, get_post_turn_filter_idx r with
      | Ok i, Err ZeroDivisionError => i =? 3 + field r 8 8 / 4
      | _, _ => false end
  | Some Kakan =>
      match get_during_turn_filter_idx r, get_post_turn_filter_idx r with
      | Ok i, Err ZeroDivisionError => i =? 37 + field r 9 7 / 3
      | _, _ => false end
  | Some _ =>
      match get_during_turn_filter_idx r, get_post_turn_filter_idx r with
      | Err ZeroDivisionError, Ok i => (2 <=? i) && (i <=? 153)
      | _, _ => false end
  | None => false
  end.
Lemma chk_idx_core_all : core_sweep chk_idx = true.
Proof. vm_cast_no_check (eq_refl true). Qed.
Lemma chk_idx_at r : chk_idx r = true.
Proof.
  rewrite <- (core_sweep_ok _ chk_idx_core_all r). unfold chk_idx.
  destruct (core_tiles r) as (T1 & T2 & T3 & _).
  rewrite in_rangeb_core, spec_kind_core, T2, T3.
  pose proof (core_fields r) as F.
  destruct (spec_kind r) as [[]|] eqn:E; try reflexivity.
  - now destruct F as (-> & _).
  - now rewrite F.
Qed.

Lemma action_index c k :
  in_range c -> spec_kind c = Some k ->
  match k with
  | Ankan | Kakan =>
      (exists i, get_during_turn_filter_idx c = Ok i /\ 3 <= i <= 70) /\
      get_post_turn_filter_idx c = Err ZeroDivisionError
  | Chi | Pon | Minkan =>
      (exists i, get_post_turn_filter_idx c = Ok i /\ 2 <= i <= 153) /\
      get_during_turn_filter_idx c = Err ZeroDivisionError
  end.
Proof.
  intros Hr Hk. pose proof Hr as Hr'. apply in_rangeb_ok in Hr'.
  pose proof (chk_idx_at (lo c)) as H. unfold chk_idx in H.
  rewrite Hr' in H. cbn [implb] in H.
  unfold in_range in Hr. rewrite Hk in Hr.
  assert (F1 : 0 <= field c 9 7) by (rewrite field_div by lia; apply Z.mod_pos_bound; lia).
  assert (F2 : 0 <= field c 8 8) by (rewrite field_div by lia; apply Z.mod_pos_bound; lia).
  rewrite during_idx_lo, post_idx_lo.
  rewrite spec_kind_lo in Hk. rewrite Hk in H.
  rewrite <- !(field_lo c) in H by lia.
  assert (D3 : 0 <= field c 9 7 / 3 <= field c 9 7) by (split; [apply Z.div_pos|apply Z.div_le_upper_bound]; lia).
  destruct k.
  all: destruct (get_during_turn_filter_idx (lo c)) as [i|e1]; destruct (get_post_turn_filter_idx (lo c)) as [j|e2];
    try easy; try (destruct e1; easy); try (destruct e2; easy).
  1,2,4: destruct e1; try easy; unfold_and H; split; [exists j; split; [reflexivity|lia] | reflexivity].
  - destruct e2; try easy. to_prop H. split; [exists i; split; [reflexivity|] | reflexivity].
    assert (field c 9 7 / 3 < 34) by (apply Z.div_lt_upper_bound; lia). lia.
  - destruct e2; try easy. to_prop H. split; [exists i; split; [reflexivity|] | reflexivity].
    assert (0 <= field c 8 8 / 4) by (apply Z.div_pos; lia).
    assert (field c 8 8 / 4 < 34) by (apply Z.div_lt_upper_bound; lia). lia.
Qed.

(** What an action index identifies.  For kans: the kind and the tile type. *)
Lemma during_index_value c :
  in_range c ->
  (spec_kind c = Some Ankan -> get_during_turn_filter_idx c = Ok (3 + field c 8 8 / 4)) /\
  (spec_kind c = Some Kakan -> get_during_turn_filter_idx c = Ok (37 + field c 9 7 / 3)).
Proof.
  intros Hr. apply in_rangeb_ok in Hr.
  pose proof (chk_idx_at (lo c)) as H. unfold chk_idx in H.
  rewrite Hr in H. cbn [implb] in H. rewrite during_idx_lo, spec_kind_lo, !(field_lo c) by lia.
  split; intros E; rewrite E in H;
  destruct (get_during_turn_filter_idx (lo c)); try easy; destruct (get_post_turn_filter_idx (lo c)) as [|[]]; try easy;
  to_prop H; now subst.
Qed.

(** Decoding of a post-turn index, for calls that are not chi with the red five
    taken from the caller's hand. *)
Inductive post_action := PChi (s n w : Z) | PPon (t : Z) | PPonRed (s : Z) | PMinkan (t : Z).
Definition post_action_eqb (x y : post_action) : bool :=
  match x, y with
  | PChi a b c, PChi a' b' c' => (a =? a') && (b =? b') && (c =? c')
  | PPon a, PPon b | PPonRed a, PPonRed b | PMinkan a, PMinkan b => a =? b
  | _, _ => false
  end.
Lemma post_action_eqb_eq x y : post_action_eqb x y = true -> x = y.
Proof. destruct x, y; cbn; intros H; try easy; unfold_and H; now subst. Qed.
Definition decode_post (i : Z) : post_action :=
  if i <? 65 then let j := i - 2 in PChi (j / 21) ((j / 3) mod 7) (j mod 3)
  else if i <? 110 then PPon (i - 83)
  else if i <? 113 then PPonRed (i - 110)
  else if i <? 120 then PPon (i - 86)
  else PMinkan (i - 120).
(** Specification of the action a code stands for: kind, tiles and position. *)
Definition action_of (c : Z) : option post_action :=
  match spec_kind c, get_exposed c with
  | Some Chi, Ok (ex, Some a) => Some (PChi (field c 10 6 / 21) ((field c 10 6 / 3) mod 7) (field c 10 6 mod 3))
  | Some Pon, Ok (ex, Some a) =>
      let t := field c 9 7 / 3 in
      (* the only red pon with an index of its own: the red five is exposed
         and the claimed tile is copy number 3 *)
      if has_red_five (a :: ex) && (a mod 4 =? 3) then Some (PPonRed (t / 9)) else Some (PPon t)
  | Some Minkan, Ok _ => Some (PMinkan (field c 8 8 / 4))
  | _, _ => None
  end.
Definition red_from_hand (c : Z) : bool :=
  match spec_kind c, get_exposed c with
  | Some Chi, Ok (ex, _) => has_red_five ex
  | _, _ => false
  end.
Lemma red_from_hand_core r : red_from_hand (core r) = red_from_hand r.
Proof. unfold red_from_hand. destruct (core_tiles r) as (T1 & _). now rewrite spec_kind_core, T1. Qed.
Lemma action_of_core r : action_of (core r) = action_of r.
Proof.
  unfold action_of. destruct (core_tiles r) as (T1 & _). rewrite spec_kind_core, T1.
  pose proof (core_fields r) as F.
  destruct (spec_kind r) as [[]|] eqn:E; try reflexivity.
  - now destruct F as (-> & _).
  - now destruct F as (-> & _).
  - now rewrite F.
Qed.
Definition chk_inj r : bool :=
  implb (in_rangeb r && negb (red_from_hand r))
  match get_post_turn_filter_idx r, action_of r with
  | Ok i, Some x => post_action_eqb (decode_post i) x
  | Err _, None => true
  | _, _ => false
  end.
Lemma chk_inj_core_all : core_sweep chk_inj = true.
Proof. vm_cast_no_check (eq_refl true). Qed.
Lemma chk_inj_at r : chk_inj r = true.
Proof.
  rewrite <- (core_sweep_ok _ chk_inj_core_all r). unfold chk_inj.
  destruct (core_tiles r) as (T1 & T2 & T3 & _).
  now rewrite in_rangeb_core, red_from_hand_core, action_of_core, T3.
Qed.

Lemma action_of_lo c : action_of c = action_of (lo c).
Proof. unfold action_of. rewrite spec_kind_lo, get_exposed_lo, !(field_lo c) by lia. reflexivity. Qed.
Lemma red_from_hand_lo c : red_from_hand c = red_from_hand (lo c).
Proof. unfold red_from_hand. now rewrite spec_kind_lo, get_exposed_lo. Qed.

Lemma post_index_decodes c i :
  in_range c -> red_from_hand c = false -> get_post_turn_filter_idx c = Ok i ->
  action_of c = Some (decode_post i).
Proof.
  intros Hr Hn Hi. apply in_rangeb_ok in Hr.
  pose proof (chk_inj_at (lo c)) as H. unfold chk_inj in H.
  rewrite red_from_hand_lo in Hn. rewrite post_idx_lo in Hi.
  rewrite Hr, Hn, Hi in H. cbn [implb negb andb] in H. rewrite action_of_lo.
  destruct (action_of (lo c)); [|easy]. apply post_action_eqb_eq in H. now subst.
Qed.

(** The tile types of a call as a function of the action. *)
Definition action_types (x : post_action) : list Z * option Z :=
  match x with
  | PChi s n w => let t := 9 * s + n in
      ((if w =? 0 then [t + 1; t + 2] else if w =? 1 then [t; t + 2] else [t; t + 1]), Some (t + w))
  | PPon t => ([t; t], Some t)
  | PPonRed s => ([9 * s + 4; 9 * s + 4], Some (9 * s + 4))
  | PMinkan t => ([t; t; t], Some t)
  end.
Definition action_kind (x : post_action) : kind :=
  match x with PChi _ _ _ => Chi | PPon _ | PPonRed _ => Pon | PMinkan _ => Minkan end.
Definition chk_types r : bool :=
  implb (in_rangeb r)
  match action_of r, get_exposed r with
  | Some x, Ok e => ex_eqb (types_of e) (action_types x) && okind_eqb (spec_kind r) (Some (action_kind x))
  | Some _, Err _ => false
  | None, _ => true
  end.
Lemma chk_types_core_all : core_sweep chk_types = true.
Proof. vm_cast_no_check (eq_refl true). Qed.
Lemma chk_types_at r : chk_types r = true.
Proof.
  rewrite <- (core_sweep_ok _ chk_types_core_all r). unfold chk_types.
  destruct (core_tiles r) as (T1 & T2 & T3 & _).
  now rewrite in_rangeb_core, spec_kind_core, action_of_core, T1.
Qed.

Lemma post_index_injective c1 c2 i ex1 a1 ex2 a2 :
  in_range c1 -> in_range c2 -> red_from_hand c1 = false -> red_from_hand c2 = false ->
  get_post_turn_filter_idx c1 = Ok i -> get_post_turn_filter_idx c2 = Ok i ->
  get_exposed c1 = Ok (ex1, a1) -> get_exposed c2 = Ok (ex2, a2) ->
  spec_kind c1 = spec_kind c2 /\ map tile_type ex1 = map tile_type ex2 /\
  option_map tile_type a1 = option_map tile_type a2.
Proof.
  intros R1 R2 N1 N2 I1 I2 E1 E2.
  pose proof (post_index_decodes _ _ R1 N1 I1) as A1. pose proof (post_index_decodes _ _ R2 N2 I2) as A2.
  apply in_rangeb_ok in R1, R2.
  pose proof (chk_types_at (lo c1)) as H1.
  pose proof (chk_types_at (lo c2)) as H2.
  unfold chk_types in H1, H2.
  rewrite action_of_lo in A1, A2. rewrite get_exposed_lo in E1, E2.
  rewrite R1, A1, E1 in H1. rewrite R2, A2, E2 in H2. cbn [implb] in H1, H2.
  apply andb_prop in H1 as [T1 K1]. apply andb_prop in H2 as [T2 K2].
  to_prop T1. to_prop T2. to_prop K1. to_prop K2.
  rewrite (spec_kind_lo c1), (spec_kind_lo c2).
  unfold types_of in T1, T2. cbn in T1, T2.
  assert (E : (map tile_type ex1, option_map tile_type a1) = (map tile_type ex2, option_map tile_type a2)) by congruence.
  injection E as -> ->. repeat split; congruence.
Qed.

Lemma during_index_injective c1 c2 i :
  in_range c1 -> in_range c2 ->
  get_during_turn_filter_idx c1 = Ok i -> get_during_turn_filter_idx c2 = Ok i ->
  exists k t ex1 a1 ex2 a2, spec_kind c1 = Some k /\ spec_kind c2 = Some k /\
    get_exposed c1 = Ok (ex1, a1) /\ get_exposed c2 = Ok (ex2, a2) /\
    (forall x, In x ex1 -> tile_type x = t) /\ (forall x, In x ex2 -> tile_type x = t).
Proof.
  intros R1 R2 I1 I2.
  assert (G : forall c i, in_range c -> get_during_turn_filter_idx c = Ok i ->
    exists k t ex a, spec_kind c = Some k /\ get_exposed c = Ok (ex, a) /\ (forall x, In x ex -> tile_type x = t) /\
      0 <= t < 34 /\ ((k = Ankan /\ i = 3 + t) \/ (k = Kakan /\ i = 37 + t))).
  { clear. intros c i R I.
    assert (Hk : exists k, spec_kind c = Some k).
    { unfold in_range in R. destruct (spec_kind c); [eauto|easy]. }
    destruct Hk as [k Hk]. destruct (proj1 (classify c) ltac:(congruence)) as [_ [[ex a] He]].
    pose proof (action_index c k R Hk) as AI.
    pose proof (during_index_value c R) as [V1 V2].
    pose proof (in_rangeb_ok c R) as Rb.
    pose proof (chk_shape_at (lo c)) as H. unfold chk_shape in H.
    rewrite Rb in H. cbn [implb] in H.
    pose proof He as He'. rewrite get_exposed_lo in He'. rewrite He' in H.
    pose proof Hk as Hk'. rewrite spec_kind_lo in Hk'. rewrite Hk' in H. cbv zeta in H.
    apply andb_prop in H as [_ H]. rewrite <- !(field_lo c) in H by lia.
    destruct k; try (destruct AI as [_ AI]; congruence).
    - destruct a; [easy|]. unfold_and H.
      exists Kakan, (field c 9 7 / 3), ex, None. repeat split; auto; try lia.
      + intros x Hx. apply (in_map tile_type) in Hx. cbn [all_tiles] in K. rewrite K in Hx.
        destruct Hx as [<-|[]]. reflexivity.
      + right. split; [reflexivity|]. rewrite V2 in I by assumption. injection I as <-. reflexivity.
    - destruct a; [easy|]. unfold_and H.
      exists Ankan, (field c 8 8 / 4), ex, None. repeat split; auto; try lia.
      + intros x Hx. apply (in_map tile_type) in Hx. cbn [all_tiles] in K. rewrite K in Hx.
        repeat destruct Hx as [<-|Hx]; try reflexivity. destruct Hx.
      + left. split; [reflexivity|]. rewrite V1 in I by assumption. injection I as <-. reflexivity. }
  destruct (G c1 i R1 I1) as (k1 & t1 & ex1 & a1 & S1 & E1 & T1 & B1 & D1).
  destruct (G c2 i R2 I2) as (k2 & t2 & ex2 & a2 & S2 & E2 & T2 & B2 & D2).
  assert (k1 = k2 /\ t1 = t2) as [-> ->].
  { destruct D1 as [[-> ?]|[-> ?]], D2 as [[-> ?]|[-> ?]]; split; try reflexivity; lia. }
  exists k2, t2, ex1, a1, ex2, a2. auto 10.
Qed.
