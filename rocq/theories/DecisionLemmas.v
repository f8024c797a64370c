(** The statements about decision_mask used by PropsDecision.v. *)
From Coq Require Import ZArith List Bool Lia.
From Verif Require Import Base Naki Decision SpecMeld SpecDecision NakiProofs NakiLemmas NakiLemmas2 DecisionProofs.
Import ListNotations.
Open Scope Z_scope.

Definition chk_total t r v : bool := is_ok (mask_abs t r v).
Lemma chk_total_all : all_cases chk_total = true.
Proof. vm_cast_no_check (eq_refl true). Qed.

Lemma mask_total player hands t r :
  length hands = 4%nat -> 0 <= player < 4 -> 0 <= t < 34 ->
  exists ds, decision_mask player hands t r = Ok ds /\ length ds = 4%nat /\
    offered ds player = [] /\
    forall p, 0 <= p < 4 -> p <> player ->
      exists l, mask_abs t r (view_of player p (hand_of hands p) t) = Ok l /\
                offered ds p = map (fun nk => NakiDecision p nk false) l.
Proof.
  intros Hl Hp Ht.
  destruct hands as [|h0 [|h1 [|h2 [|h3 [|]]]]]; try discriminate Hl. clear Hl.
  assert (M : forall p h, 0 <= p < 4 -> p <> player ->
     exists l, mask_abs t r (view_of player p h t) = Ok l /\
       mask_for player t r p h = Ok (map (fun nk => NakiDecision p nk false) l)).
  { intros p h Bp Ne. pose proof (all_cases_ok _ chk_total_all t r player p h Ht Hp Bp Ne) as H.
    unfold chk_total in H. rewrite mask_abs_ok.
    destruct (mask_abs t r (view_of player p h t)) as [l|]; [|easy]. exists l. split; reflexivity. }
  unfold decision_mask. change (zrange 4) with [0; 1; 2; 3]. cbn [combine mapM fst snd].
  assert (S : forall p h, 0 <= p < 4 ->
     exists l, (if p =? player then Ok [] else mask_for player t r p h) = Ok l /\
       (p = player -> l = []) /\
       (p <> player -> exists l0, mask_abs t r (view_of player p h t) = Ok l0 /\ l = map (fun nk => NakiDecision p nk false) l0)).
  { intros p h Bp. destruct (Z.eqb_spec p player) as [E|E].
    - exists []. repeat split; easy.
    - destruct (M p h Bp E) as (l & A & B). exists (map (fun nk => NakiDecision p nk false) l).
      split; [exact B|]. split; [easy|]. intros _. exists l. split; [exact A|reflexivity]. }
  destruct (S 0 h0 ltac:(lia)) as (l0 & E0 & P0 & Q0).
  destruct (S 1 h1 ltac:(lia)) as (l1 & E1 & P1 & Q1).
  destruct (S 2 h2 ltac:(lia)) as (l2 & E2 & P2 & Q2).
  destruct (S 3 h3 ltac:(lia)) as (l3 & E3 & P3 & Q3).
  rewrite E0, E1, E2, E3. cbn [bind]. exists [l0; l1; l2; l3].
  split; [reflexivity|]. split; [reflexivity|]. split.
  - assert (C : player = 0 \/ player = 1 \/ player = 2 \/ player = 3) by lia.
    destruct C as [-> | [-> | [-> | ->]]]; unfold offered; cbn; auto.
  - intros p Bp Ne.
    assert (C : p = 0 \/ p = 1 \/ p = 2 \/ p = 3) by lia.
    destruct C as [-> | [-> | [-> | ->]]]; unfold offered, hand_of; cbn; auto.
Qed.

(** Generic use of a check on every candidate. *)
Definition each (Q : Z -> bool -> view -> naki -> bool) t r v : bool :=
  match mask_abs t r v with Ok l => forallb (Q t r v) l | Err _ => false end.

Lemma each_offered Q : all_cases (each Q) = true ->
  forall player hands t r ds p d,
  length hands = 4%nat -> 0 <= player < 4 -> 0 <= t < 34 -> 0 <= p < 4 ->
  decision_mask player hands t r = Ok ds -> In d (offered ds p) ->
  p <> player /\ exists nk, d = NakiDecision p nk false /\
    Q t r (view_of player p (hand_of hands p) t) nk = true.
Proof.
  intros H player hands t r ds p d Hl Hpl Ht Hp E Hin.
  destruct (mask_total player hands t r Hl Hpl Ht) as (ds' & E' & _ & N & M).
  rewrite E in E'. injection E' as <-.
  destruct (Z.eq_dec p player) as [->|Ne]; [rewrite N in Hin; destruct Hin|].
  split; [exact Ne|]. destruct (M p Hp Ne) as (l & A & B).
  pose proof (all_cases_ok _ H t r player p (hand_of hands p) Ht Hpl Hp Ne) as C.
  unfold each in C. rewrite A in C. rewrite forallb_forall in C.
  rewrite B in Hin. apply in_map_iff in Hin as (nk & <- & Hn). exists nk. split; [reflexivity|]. now apply C.
Qed.

Definition some_cand (Q : Z -> bool -> view -> naki -> bool) t r v : bool :=
  match mask_abs t r v with Ok l => existsb (Q t r v) l | Err _ => false end.

Lemma some_offered (C : Z -> bool -> view -> bool) Q :
  all_cases (fun t r v => if C t r v then some_cand Q t r v else true) = true ->
  forall player hands t r ds p,
  length hands = 4%nat -> 0 <= player < 4 -> 0 <= t < 34 -> 0 <= p < 4 -> p <> player ->
  decision_mask player hands t r = Ok ds ->
  C t r (view_of player p (hand_of hands p) t) = true ->
  exists nk, In (NakiDecision p nk false) (offered ds p) /\
    Q t r (view_of player p (hand_of hands p) t) nk = true.
Proof.
  intros H player hands t r ds p Hl Hpl Ht Hp Ne E Hc.
  destruct (mask_total player hands t r Hl Hpl Ht) as (ds' & E' & _ & _ & M).
  rewrite E in E'. injection E' as <-.
  destruct (M p Hp Ne) as (l & A & B).
  pose proof (all_cases_ok _ H t r player p (hand_of hands p) Ht Hpl Hp Ne) as D. cbv beta in D.
  rewrite Hc in D. unfold some_cand in D. rewrite A in D.
  apply existsb_exists in D as (nk & I & Q1). exists nk. split; [|exact Q1].
  rewrite B. apply in_map_iff. exists nk. auto.
Qed.

(** ** C12 *)
Definition q12 (t : Z) (r : bool) (v : view) (nk : naki) : bool :=
  (nk_conv nk =? nk_code nk) && (from_who (nk_code nk) =? v_seat v) &&
  match spec_kind (nk_code nk) with
  | Some Chi => v_next v
  | Some Pon | Some Minkan => true
  | _ => false
  end.
Lemma q12_all : all_cases (each q12) = true.
Proof. vm_cast_no_check (eq_refl true). Qed.

Lemma right_players player hands t r ds :
  length hands = 4%nat -> 0 <= player < 4 -> 0 <= t < 34 ->
  decision_mask player hands t r = Ok ds ->
  offered ds player = [] /\
  forall p d, 0 <= p < 4 -> In d (offered ds p) ->
    exists nk k, d = NakiDecision p nk false /\ spec_kind (nk_code nk) = Some k /\
      (k = Chi \/ k = Pon \/ k = Minkan) /\
      (p + from_who (nk_code nk)) mod 4 = player /\
      (k = Chi -> p = (player + 1) mod 4).
Proof.
  intros Hl Hpl Ht E. split.
  { destruct (mask_total player hands t r Hl Hpl Ht) as (ds' & E' & _ & N & _). congruence. }
  intros p d Hp Hin.
  destruct (each_offered _ q12_all player hands t r ds p d Hl Hpl Ht Hp E Hin) as (Ne & nk & -> & Q).
  unfold q12 in Q. unfold_and Q. exists nk.
  assert (F : (p + from_who (nk_code nk)) mod 4 = player).
  { rewrite K0. unfold view_of. cbn [v_seat].
    rewrite Z.add_mod_idemp_r by lia. replace (p + (player - p)) with player by lia. now apply Z.mod_small. }
  assert (G : v_next (view_of player p (hand_of hands p) t) = true -> p = (player + 1) mod 4).
  { unfold view_of. cbn [v_next]. intros G. apply Z.eqb_eq in G.
    assert (C : (p = 0 \/ p = 1 \/ p = 2 \/ p = 3) /\ (player = 0 \/ player = 1 \/ player = 2 \/ player = 3)) by lia.
    destruct C as [[-> | [-> | [-> | ->]]] [-> | [-> | [-> | ->]]]]; cbv in G |- *; congruence. }
  destruct (spec_kind (nk_code nk)) as [[]|]; try easy.
  - exists Chi. repeat split; auto.
  - exists Pon. repeat split; auto. intros X; discriminate X.
  - exists Minkan. repeat split; auto. intros X; discriminate X.
Qed.

(** ** C13 *)
(** The chi candidates that go wrong: the discarded tile (a four or a six) in the
    middle of the run and the red five in hand. *)
Definition middle_exception (t : Z) (red_in_hand : bool) (code : Z) : bool :=
  red_in_hand && (t <? 27) && ((t mod 9 =? 3) || (t mod 9 =? 5)) &&
  okind_eqb (spec_kind code) (Some Chi) &&
  (p_number (pattern_chi code) =? t mod 9 - 1).

Definition q13 (t : Z) (r : bool) (v : view) (nk : naki) : bool :=
  middle_exception t (v_red v) (nk_code nk) ||
  match get_exposed (nk_code nk) with
  | Ok (ex, Some a) =>
    (tile_type a =? t) &&
    match map tile_type ex with
    | [x; y] =>
        (v_low v && (x =? t - 2) && (y =? t - 1)) || (v_mid v && (x =? t - 1) && (y =? t + 1)) ||
        (v_high v && (x =? t + 1) && (y =? t + 2)) || ((v_two v || (v_b2 v && v_red v)) && (x =? t) && (y =? t))
    | [x; y; z] => v_three v && (x =? t) && (y =? t) && (z =? t)
    | _ => false
    end
  | _ => false
  end.
Lemma q13_all : all_cases (each q13) = true.
Proof. vm_cast_no_check (eq_refl true). Qed.

Lemma both_true h i j : (forall x, 0 <= hget h x) -> both h i j = true -> 1 <= hget h i /\ 1 <= hget h j.
Proof.
  intros N H. unfold both in H. apply negb_true_iff, Z.eqb_neq in H.
  pose proof (N i); pose proof (N j). split; nia.
Qed.

Lemma holds_two h x y : (forall z, 0 <= hget h z) -> x <> y -> 1 <= hget h x -> 1 <= hget h y -> holds_all h [x; y].
Proof.
  intros N Ne Hx Hy z. pose proof (N z). cbn. 
  destruct (Z.eq_dec x z), (Z.eq_dec y z); subst; cbn; lia || congruence.
Qed.
Lemma holds_pair h x : (forall z, 0 <= hget h z) -> 2 <= hget h x -> holds_all h [x; x].
Proof. intros N Hx z. pose proof (N z). cbn. destruct (Z.eq_dec x z); subst; cbn; lia. Qed.
Lemma holds_triple h x : (forall z, 0 <= hget h z) -> 3 <= hget h x -> holds_all h [x; x; x].
Proof. intros N Hx z. pose proof (N z). cbn. destruct (Z.eq_dec x z); subst; cbn; lia. Qed.

Lemma playable player hands t r ds p d nk :
  length hands = 4%nat -> 0 <= player < 4 -> 0 <= t < 34 -> 0 <= p < 4 ->
  (forall x, 0 <= hget (hand_of hands p) x) ->
  decision_mask player hands t r = Ok ds -> In d (offered ds p) -> d = NakiDecision p nk false ->
  ~ (holds_red (hand_of hands p) t /\ t < 27 /\ (t mod 9 = 3 \/ t mod 9 = 5) /\
     spec_kind (nk_code nk) = Some Chi /\ p_number (pattern_chi (nk_code nk)) = t mod 9 - 1) ->
  exists ex a, get_exposed (nk_code nk) = Ok (ex, Some a) /\ tile_type a = t /\
    holds_all (hand_of hands p) (map tile_type ex).
Proof.
  intros Hl Hpl Ht Hp N E Hin Hd Hx0.
  assert (Hx : middle_exception t (0 <? hget (hand_of hands p) (34 + t / 9)) (nk_code nk) = false).
  { apply not_true_is_false. intros H. apply Hx0. clear - H. unfold middle_exception in H.
    apply andb_prop in H as [H H5]. apply andb_prop in H as [H H4]. apply andb_prop in H as [H H3].
    apply andb_prop in H as [H1 H2]. apply Z.ltb_lt in H1, H2. apply Z.eqb_eq in H5. apply okind_eqb_eq in H4.
    apply orb_prop in H3. rewrite !Z.eqb_eq in H3. unfold holds_red. auto. }
  destruct (each_offered _ q13_all player hands t r ds p d Hl Hpl Ht Hp E Hin) as (Ne & nk' & -> & Q).
  injection Hd as ->. unfold q13 in Q.
  change (v_red (view_of player p (hand_of hands p) t)) with (0 <? hget (hand_of hands p) (34 + t / 9)) in Q.
  rewrite Hx in Q. cbn [orb] in Q.
  destruct (get_exposed (nk_code nk)) as [[ex [a|]]|]; try easy.
  apply andb_prop in Q as [Qa Q]. apply Z.eqb_eq in Qa.
  exists ex, a. split; [reflexivity|]. split; [exact Qa|].
  set (h := hand_of hands p) in *.
  destruct (map tile_type ex) as [|x [|y [|z [|]]]]; try easy.
  - unfold view_of in Q. cbn [v_low v_mid v_high v_two v_b2 v_red] in Q.
    apply orb_prop in Q as [Q|Q]; [apply orb_prop in Q as [Q|Q]; [apply orb_prop in Q as [Q|Q]|]|].
    + apply andb_prop in Q as [Q Qy]. apply andb_prop in Q as [Q Qx]. apply Z.eqb_eq in Qx, Qy. subst.
      apply both_true in Q as []; [|exact N]. apply holds_two; auto; lia.
    + apply andb_prop in Q as [Q Qy]. apply andb_prop in Q as [Q Qx]. apply Z.eqb_eq in Qx, Qy. subst.
      apply both_true in Q as []; [|exact N]. apply holds_two; auto; lia.
    + apply andb_prop in Q as [Q Qy]. apply andb_prop in Q as [Q Qx]. apply Z.eqb_eq in Qx, Qy. subst.
      apply both_true in Q as []; [|exact N]. apply holds_two; auto; lia.
    + apply andb_prop in Q as [Q Qy]. apply andb_prop in Q as [Q Qx]. apply Z.eqb_eq in Qx, Qy. subst x y.
      apply holds_pair; auto. apply orb_prop in Q as [Q|Q].
      * apply Z.eqb_eq in Q. lia.
      * apply andb_prop in Q as [Q _]. apply Z.eqb_eq in Q. destruct (0 <? _); cbn in Q; lia.
  - apply andb_prop in Q as [Q Qz]. apply andb_prop in Q as [Q Qy]. apply andb_prop in Q as [Q Qx].
    apply Z.eqb_eq in Qx, Qy, Qz. subst x y z. cbn [v_three view_of] in Q. apply Z.eqb_eq in Q.
    apply holds_triple; auto. fold h in Q. lia.
Qed.

(** ** C14 *)
Definition c14 (w : Z) (t : Z) (r : bool) (v : view) : bool :=
  v_next v && (t <? 27) && (0 <=? t mod 9 - w) && (t mod 9 - w <? 7) &&
  (if w =? 0 then v_high v else if w =? 1 then v_mid v else v_low v) &&
  negb ((w =? 1) && ((t mod 9 =? 3) || (t mod 9 =? 5)) && v_red v).
Definition q14 (w : Z) (t : Z) (r : bool) (v : view) (nk : naki) : bool :=
  okind_eqb (spec_kind (nk_code nk)) (Some Chi) &&
  let p := pattern_chi (nk_code nk) in
  (p_color p =? t / 9) && (p_number p =? t mod 9 - w) && (p_which p =? w).
Lemma q14_all : all_z 3 (fun w =>
  all_cases (fun t r v => if c14 w t r v then some_cand (q14 w) t r v else true)) = true.
Proof. vm_cast_no_check (eq_refl true). Qed.

Lemma both_intro h i j : 0 < hget h i -> 0 < hget h j -> both h i j = true.
Proof. intros. unfold both. apply negb_true_iff, Z.eqb_neq. nia. Qed.

Lemma chi_complete player hands s n w r ds :
  length hands = 4%nat -> 0 <= player < 4 -> 0 <= s < 3 -> 0 <= n < 7 -> 0 <= w < 3 ->
  let p := (player + 1) mod 4 in
  let h := hand_of hands p in
  let t := 9 * s + n + w in
  decision_mask player hands t r = Ok ds ->
  (forall i, 0 <= i < 3 -> i <> w -> 0 < hget h (9 * s + n + i)) ->
  ~ (w = 1 /\ (n + w = 3 \/ n + w = 5) /\ 0 < hget h (34 + s)) ->
  exists nk, In (NakiDecision p nk false) (offered ds p) /\
    spec_kind (nk_code nk) = Some Chi /\
    p_color (pattern_chi (nk_code nk)) = s /\ p_number (pattern_chi (nk_code nk)) = n /\
    p_which (pattern_chi (nk_code nk)) = w.
Proof.
  intros Hl Hpl Hs Hn Hw p h t E Hh Hx.
  assert (Bp : 0 <= p < 4) by (apply Z.mod_pos_bound; lia).
  assert (Ne : p <> player /\ (p - player) mod 4 = 1).
  { subst p. assert (C : player = 0 \/ player = 1 \/ player = 2 \/ player = 3) by lia.
    destruct C as [-> | [-> | [-> | ->]]]; cbv; split; congruence. }
  destruct Ne as [Ne Nx].
  assert (T9 : t / 9 = s /\ t mod 9 = n + w).
  { assert (Hnw : 0 <= n + w < 9) by lia. split.
    - symmetry. apply (Z.div_unique t 9 s (n + w)); lia.
    - symmetry. apply (Z.mod_unique t 9 s (n + w)); lia. }
  destruct T9 as [Td Tm].
  pose proof (all_z_ok _ _ q14_all w Hw) as Q2. cbv beta in Q2.
  destruct (some_offered _ _ Q2 player hands t r ds p Hl Hpl ltac:(lia) Bp Ne E) as (nk & I & Q).
  - fold h. unfold c14, view_of. cbn [v_next v_low v_mid v_high v_red].
    rewrite Tm, Td, Nx. replace (n + w - w) with n by lia. cbn [andb Z.eqb Pos.eqb].
    replace (0 <=? n) with true by (symmetry; apply Z.leb_le; lia).
    replace (n <? 7) with true by (symmetry; apply Z.ltb_lt; lia).
    replace (t <? 27) with true by (symmetry; apply Z.ltb_lt; lia). cbn [andb].
    assert (C : w = 0 \/ w = 1 \/ w = 2) by lia.
    apply andb_true_intro. split.
    + destruct C as [-> | [-> | ->]]; cbn [Z.eqb Pos.eqb]; apply both_intro; unfold t.
      * replace (9 * s + n + 0 + 1) with (9 * s + n + 1) by lia. apply Hh; lia.
      * replace (9 * s + n + 0 + 2) with (9 * s + n + 2) by lia. apply Hh; lia.
      * replace (9 * s + n + 1 - 1) with (9 * s + n + 0) by lia. apply Hh; lia.
      * replace (9 * s + n + 1 + 1) with (9 * s + n + 2) by lia. apply Hh; lia.
      * replace (9 * s + n + 2 - 2) with (9 * s + n + 0) by lia. apply Hh; lia.
      * replace (9 * s + n + 2 - 1) with (9 * s + n + 1) by lia. apply Hh; lia.
    + apply negb_true_iff. destruct (Z.eqb_spec w 1); [|reflexivity].
      destruct (Z.eqb_spec (n + w) 3), (Z.eqb_spec (n + w) 5); cbn [andb orb]; try reflexivity;
      apply Z.ltb_ge; destruct (Z_lt_dec 0 (hget h (34 + s))); try lia; exfalso; apply Hx; auto.
  - unfold q14 in Q. unfold_and Q. exists nk. rewrite Td, Tm in *. repeat split; auto; lia.
Qed.

(** ** C15 *)
Definition offers (k : kind) (l : list naki) : bool :=
  existsb (fun nk => okind_eqb (spec_kind (nk_code nk)) (Some k)) l.
Definition chk15 t (r : bool) v : bool :=
  match mask_abs t r v with
  | Ok l => Bool.eqb (offers Pon l) (v_two v || (v_b2 v && v_red v && five_typeb t)) &&
            Bool.eqb (offers Minkan l) (v_three v)
  | Err _ => false
  end.
Lemma chk15_all : all_cases chk15 = true.
Proof. vm_cast_no_check (eq_refl true). Qed.

Lemma offers_iff k p l ds : offered ds p = map (fun nk => NakiDecision p nk false) l ->
  (offers_kind k ds p <-> offers k l = true).
Proof.
  intros E. unfold offers_kind, offers. rewrite existsb_exists, E. split.
  - intros (nk & I & K). apply in_map_iff in I as (nk' & Eq & I). injection Eq as <-.
    exists nk'. split; [exact I|]. rewrite K. destruct k; reflexivity.
  - intros (nk & I & K). apply okind_eqb_eq in K. exists nk. split; [|exact K].
    apply in_map_iff. eauto.
Qed.

Lemma pon_minkan_exact player hands t r ds p :
  length hands = 4%nat -> 0 <= player < 4 -> 0 <= t < 34 -> 0 <= p < 4 -> p <> player ->
  decision_mask player hands t r = Ok ds ->
  (offers_kind Pon ds p <->
     hget (hand_of hands p) t = 2 \/
     (hget (hand_of hands p) t = 3 /\ five_type t /\ 0 < hget (hand_of hands p) (34 + t / 9))) /\
  (offers_kind Minkan ds p <-> hget (hand_of hands p) t = 3).
Proof.
  intros Hl Hpl Ht Hp Ne E.
  destruct (mask_total player hands t r Hl Hpl Ht) as (ds' & E' & _ & _ & M).
  rewrite E in E'. injection E' as <-. destruct (M p Hp Ne) as (l & A & B).
  pose proof (all_cases_ok _ chk15_all t r player p (hand_of hands p) Ht Hpl Hp Ne) as C.
  unfold chk15 in C. rewrite A in C. apply andb_prop in C as [C1 C2]. apply eqb_prop in C1, C2.
  rewrite !(offers_iff _ _ _ _ B), C1, C2. unfold view_of. cbn [v_two v_b2 v_red v_three].
  set (h := hand_of hands p).
  assert (F : five_typeb t = true <-> five_type t).
  { unfold five_typeb, five_type. rewrite !orb_true_iff, !Z.eqb_eq. tauto. }
  split; [|apply Z.eqb_eq].
  rewrite orb_true_iff, !andb_true_iff, F, Z.ltb_lt, !Z.eqb_eq.
  split.
  - intros [H|[[H R] F5]]; [left; exact H|]. right.
    apply Z.ltb_lt in R as R'. rewrite R' in H. cbn in H. repeat split; auto; lia.
  - intros [H|[H [F5 R]]]; [left; exact H|]. right.
    apply Z.ltb_lt in R as R'. rewrite R'. cbn. repeat split; auto; lia.
Qed.

(** ** C16 *)
Definition q16 (t : Z) (r : bool) (v : view) (nk : naki) : bool :=
  implb (negb (okind_eqb (spec_kind (nk_code nk)) (Some Minkan)))
  match get_exposed (nk_code nk) with
  | Ok (ex, a) => implb (has_red_five (all_tiles ex a)) ((r && five_typeb t) || v_red v)
  | Err _ => false
  end.
Lemma q16_all : all_cases (each q16) = true.
Proof. vm_cast_no_check (eq_refl true). Qed.

Lemma red_real player hands t r ds p nk ex a :
  length hands = 4%nat -> 0 <= player < 4 -> 0 <= t < 34 -> 0 <= p < 4 ->
  decision_mask player hands t r = Ok ds -> In (NakiDecision p nk false) (offered ds p) ->
  spec_kind (nk_code nk) <> Some Minkan ->
  get_exposed (nk_code nk) = Ok (ex, a) -> has_red_five (all_tiles ex a) = true ->
  (r = true /\ five_type t) \/ 0 < hget (hand_of hands p) (34 + t / 9).
Proof.
  intros Hl Hpl Ht Hp E Hin Hk He Hr.
  destruct (each_offered _ q16_all player hands t r ds p _ Hl Hpl Ht Hp E Hin) as (Ne & nk' & Eq & Q).
  injection Eq as <-. unfold q16 in Q.
  destruct (okind_eqb (spec_kind (nk_code nk)) (Some Minkan)) eqn:Ek;
    [apply okind_eqb_eq in Ek; congruence|].
  cbn [implb negb] in Q. rewrite He, Hr in Q. cbn [implb] in Q.
  apply orb_prop in Q as [Q|Q].
  - left. apply andb_prop in Q as [Q1 Q2]. split; [exact Q1|].
    unfold five_typeb, five_type in *. rewrite !orb_true_iff, !Z.eqb_eq in Q2. tauto.
  - right. now apply Z.ltb_lt in Q.
Qed.

(** ** C17 *)
(** With no red five of the suit in hand, every run through the discarded tile is
    offered with exactly the code of the factory. *)
Definition c17 (w : Z) (t : Z) (r : bool) (v : view) : bool :=
  v_next v && (t <? 27) && (0 <=? t mod 9 - w) && (t mod 9 - w <? 7) &&
  (if w =? 0 then v_high v else if w =? 1 then v_mid v else v_low v) && negb (v_red v).
Definition q17 (w : Z) (t : Z) (r : bool) (v : view) (nk : naki) : bool :=
  match from_chi_info (t / 9) (t mod 9 - w) w (r && five_typeb t) with
  | Ok nk' => nk_conv nk =? nk_conv nk'
  | Err _ => false
  end.
Lemma q17_all : all_z 3 (fun w =>
  all_cases (fun t r v => if c17 w t r v then some_cand (q17 w) t r v else true)) = true.
Proof. vm_cast_no_check (eq_refl true). Qed.

(** The tiles of an in-range chi code, read off its pattern. *)
Definition chk_chi_tiles r : bool :=
  implb (in_rangeb r && okind_eqb (spec_kind r) (Some Chi))
  (let p := pattern_chi r in
   (0 <=? p_color p) && (p_color p <? 3) && (0 <=? p_number p) && (p_number p <? 7) &&
   (0 <=? p_which p) && (p_which p <? 3) &&
   match get_exposed r with
   | Ok (ex, Some a) =>
     (tile_type a =? 9 * p_color p + p_number p + p_which p) &&
     leqb (map tile_type ex) (map (fun i => 9 * p_color p + p_number p + i)
        (if p_which p =? 0 then [1; 2] else if p_which p =? 1 then [0; 2] else [0; 1])) &&
     Bool.eqb (p_red p) (has_red_five (a :: ex)) &&
     implb (red_fiveb a) (five_typeb (tile_type a)) &&
     forallb (fun x => implb (red_fiveb x) (x / 36 =? p_color p)) ex
   | _ => false
   end).
Lemma chk_chi_tiles_all : sweep 16 chk_chi_tiles = true.
Proof. vm_cast_no_check (eq_refl true). Qed.

Lemma num9 s n w t : t = 9 * s + n + w -> 0 <= s < 3 -> 0 <= n < 7 -> 0 <= w < 3 ->
  t / 9 = s /\ t mod 9 = n + w /\ n + w - w = n /\ (0 <=? n) = true /\ (n <? 7) = true /\ (t <? 27) = true /\
  (w = 0 \/ w = 1 \/ w = 2).
Proof.
  intros. repeat split; [| |lia|apply Z.leb_le; lia|apply Z.ltb_lt; lia|apply Z.ltb_lt; lia|lia].
  - symmetry. apply (Z.div_unique t 9 s (n + w)); lia.
  - symmetry. apply (Z.mod_unique t 9 s (n + w)); lia.
Qed.

Lemma chi_label player hands c nk t r ds ex a :
  length hands = 4%nat -> 0 <= player < 4 -> 0 <= t < 34 ->
  let p := (player + 1) mod 4 in
  let h := hand_of hands p in
  decision_mask player hands t r = Ok ds ->
  mk_naki c = Ok nk -> spec_kind c = Some Chi -> in_range c -> unused_clear c -> from_who c = 3 ->
  get_exposed c = Ok (ex, Some a) -> tile_type a = t -> red_fiveb a = r ->
  (forall x, 0 <= hget h x) -> holds_all h (map tile_type ex) ->
  hget h (34 + t / 9) = 0 -> has_red_five ex = false ->
  exists nk', In (NakiDecision p nk' false) (offered ds p) /\ nk_conv nk' = nk_conv nk.
Proof.
  intros Hl Hpl Ht p h E Hc Hk Hr Hu Hf He Ha Hra N Hh Hnored Hexred.
  assert (Bp : 0 <= p < 4) by (apply Z.mod_pos_bound; lia).
  assert (Ne : p <> player /\ (p - player) mod 4 = 1).
  { subst p. assert (C : player = 0 \/ player = 1 \/ player = 2 \/ player = 3) by lia.
    destruct C as [-> | [-> | [-> | ->]]]; cbv; split; congruence. }
  destruct Ne as [Ne Nx].
  destruct (chi_canonical c nk Hc Hk Hu Hr) as (nf & Fi & Cv). cbv zeta in Fi. rewrite Hf in Cv.
  replace (nk_conv nf - 3 + 3) with (nk_conv nf) in Cv by lia.
  pose proof (sweep16 _ chk_chi_tiles_all c (proj1 Hu)) as S. unfold chk_chi_tiles in S.
  pose proof (in_rangeb_ok c Hr) as Rb. rewrite (lo_small c (proj1 Hu)) in Rb.
  rewrite Rb, Hk, He in S. cbn [okind_eqb kind_eqb andb implb] in S.
  set (s := p_color (pattern_chi c)) in *. set (n := p_number (pattern_chi c)) in *.
  set (w := p_which (pattern_chi c)) in *. clearbody s n w. clear Hf Rb Hr Hu Hk He.
  apply andb_prop in S as [S St]. unfold_and S.
  apply andb_prop in St as [St S5]. apply andb_prop in St as [St S4]. apply andb_prop in St as [St S3].
  apply andb_prop in St as [S1 S2]. to_prop S1. to_prop S2. to_prop S3. rewrite Ha in S1.
  assert (B : 0 <= s < 3 /\ 0 <= n < 7 /\ 0 <= w < 3) by (clear - S K K0 K1 K2 K3; lia).
  destruct B as (B1 & B2 & B3).
  destruct (num9 s n w t S1 B1 B2 B3) as (Td & Tm & NW & L1 & L2 & L3 & C).
  assert (Red : p_red (pattern_chi c) = r && five_typeb t).
  { rewrite S3. unfold has_red_five in *. cbn [existsb]. rewrite Hexred, orb_false_r, Hra.
    destruct r; [|reflexivity]. rewrite Hra in S4. cbn [implb] in S4. rewrite Ha in S4. now rewrite S4. }
  pose proof (all_z_ok _ _ q17_all w B3) as Q2. cbv beta in Q2.
  destruct (some_offered _ _ Q2 player hands t r ds p Hl Hpl Ht Bp Ne E) as (nk' & I & Q).
  - fold h. unfold c17, view_of. cbn [v_next v_low v_mid v_high v_red].
    rewrite Tm, Td, Nx, NW, L1, L2, L3. cbn [andb Z.eqb Pos.eqb].
    rewrite Td in Hnored. rewrite Hnored. cbn [Z.ltb Z.compare negb]. rewrite andb_true_r.
    assert (P : forall x, In x (map tile_type ex) -> 0 < hget h x).
    { intros x Hx. specialize (Hh x). apply (count_occ_In Z.eq_dec) in Hx. clear - Hh Hx. lia. }
    rewrite S2 in P.
    destruct C as [C | [C | C]]; rewrite C in *; cbn [Z.eqb Pos.eqb map] in *; apply both_intro;
    apply P; cbn [In]; clear - S1; lia.
  - exists nk'. split; [exact I|]. unfold q17 in Q. rewrite <- Red, Td, Tm, NW, Fi in Q. apply Z.eqb_eq in Q. congruence.
Qed.

(** Open kans: the candidate's comparison code never equals that of a logged open kan. *)
Definition chk_mk_conv r : bool :=
  implb (okind_eqb (spec_kind r) (Some Minkan) && in_rangeb r)
  match clean r, get_exposed r with
  | Ok v, Ok (ex, Some a) =>
      v mod 256 + 256 * (4 * tile_type a + (if red_fiveb a then 0 else 1)) =? v
  | _, _ => false
  end.
Lemma chk_mk_conv_all : sweep 16 chk_mk_conv = true.
Proof. vm_cast_no_check (eq_refl true). Qed.

Definition q17m (t : Z) (r : bool) (v : view) (nk : naki) : bool :=
  implb (okind_eqb (spec_kind (nk_code nk)) (Some Minkan))
  ((nk_conv nk mod 256 + 256 * (4 * t + (if r && five_typeb t then 1 else 0)) =? nk_conv nk) &&
   (0 <=? nk_conv nk) && (nk_conv nk <? 65536)).
Lemma q17m_all : all_cases (each q17m) = true.
Proof. vm_cast_no_check (eq_refl true). Qed.

Lemma minkan_never_labelled player hands c nk t r ds ex a p nk' :
  length hands = 4%nat -> 0 <= player < 4 -> 0 <= t < 34 -> 0 <= p < 4 ->
  decision_mask player hands t r = Ok ds ->
  mk_naki c = Ok nk -> spec_kind c = Some Minkan -> in_range c -> 0 <= c < 65536 ->
  get_exposed c = Ok (ex, Some a) -> tile_type a = t -> red_fiveb a = r ->
  In (NakiDecision p nk' false) (offered ds p) -> nk_conv nk' <> nk_conv nk.
Proof.
  intros Hl Hpl Ht Hp E Hc Hk Hr Hb He Ha Hra Hin Eq.
  destruct (each_offered _ q17m_all player hands t r ds p _ Hl Hpl Ht Hp E Hin) as (Ne & x & Ex & Q).
  injection Ex as <-. unfold q17m in Q.
  pose proof (normalise c nk ex (Some a) Hc He) as (_ & Sk & _).
  pose proof (sweep16 _ chk_mk_conv_all c Hb) as S. unfold chk_mk_conv in S.
  pose proof (in_rangeb_ok c Hr) as Rb. rewrite (lo_small c Hb) in Rb. rewrite Hk, Rb, He in S.
  cbn [okind_eqb kind_eqb andb implb] in S.
  unfold mk_naki in Hc. destruct (clean c) as [v|]; [|easy]. injection Hc as <-. cbn [nk_conv] in *.
  apply Z.eqb_eq in S.
  destruct (each_offered _ q12_all player hands t r ds p _ Hl Hpl Ht Hp E Hin) as (_ & x & Ex & Q12).
  injection Ex as <-. unfold q12 in Q12. unfold_and Q12.
  rewrite <- Eq, Q12, Hk in Sk. rewrite Sk in Q. cbn [okind_eqb kind_eqb implb] in Q.
  unfold_and Q. rewrite Eq in Q. rewrite <- S in Q at 2.
  rewrite Ha, Hra in Q.
  assert (F : r = true -> five_typeb t = true).
  { intros ->. unfold red_fiveb in Hra. rewrite !orb_true_iff, !Z.eqb_eq in Hra.
    destruct Hra as [[-> | ->] | ->]; subst t; reflexivity. }
  destruct r; [rewrite F in Q by reflexivity|]; cbn [andb] in Q; lia.
Qed.

(** Pons of non-fives: the candidate matches exactly the logged codes whose claim
    position field is 0. *)
Definition chk_pon_conv r : bool :=
  implb (okind_eqb (spec_kind r) (Some Pon) && in_rangeb r && (field r 7 2 =? 0))
  match clean r, get_exposed r with
  | Ok v, Ok (ex, Some a) =>
      implb (negb (five_typeb (tile_type a)))
        (v =? field r 0 2 + 8 + 512 * (3 * tile_type a + field r 9 7 mod 3)) 
  | _, _ => false
  end.
Lemma chk_pon_conv_all : sweep 16 chk_pon_conv = true.
Proof. vm_cast_no_check (eq_refl true). Qed.
Definition chk17p t (r : bool) v : bool :=
  implb (negb (five_typeb t))
  match mask_abs t r v with
  | Ok l => leqb (map nk_conv (filter (fun nk => okind_eqb (spec_kind (nk_code nk)) (Some Pon)) l))
                 (if v_two v then [v_seat v + 8 + 512 * (3 * t)] else [])
  | Err _ => false
  end.
Lemma chk17p_all : all_cases chk17p = true.
Proof. vm_cast_no_check (eq_refl true). Qed.

Lemma field_seat c : field c 0 2 = from_who c.
Proof.
  unfold field, from_who. now rewrite Z.shiftr_0_r.
Qed.

Lemma pon_label player hands c nk t r ds ex a p :
  length hands = 4%nat -> 0 <= player < 4 -> 0 <= t < 34 -> 0 <= p < 4 -> p <> player ->
  decision_mask player hands t r = Ok ds ->
  mk_naki c = Ok nk -> spec_kind c = Some Pon -> in_range c -> unused_clear c ->
  from_who c = (player - p) mod 4 ->
  get_exposed c = Ok (ex, Some a) -> tile_type a = t -> ~ five_type t ->
  ((exists nk', In (NakiDecision p nk' false) (offered ds p) /\ nk_conv nk' = nk_conv nk) <->
   (hget (hand_of hands p) t = 2 /\ field c 9 7 mod 3 = 0)).
Proof.
  intros Hl Hpl Ht Hp Ne E Hc Hk Hr Hu Hf He Ha H5.
  assert (F : five_typeb t = false).
  { destruct (five_typeb t) eqn:F; [|reflexivity]. exfalso. apply H5.
    unfold five_typeb, five_type in *. rewrite !orb_true_iff, !Z.eqb_eq in F. tauto. }
  destruct (mask_total player hands t r Hl Hpl Ht) as (ds' & E' & _ & _ & M).
  rewrite E in E'. injection E' as <-. destruct (M p Hp Ne) as (l & A & B).
  pose proof (all_cases_ok _ chk17p_all t r player p (hand_of hands p) Ht Hpl Hp Ne) as C.
  unfold chk17p in C. rewrite F, A in C. cbn [negb implb] in C. apply leqb_eq in C.
  pose proof (normalise c nk ex (Some a) Hc He) as (_ & Sk & _). rewrite Hk in Sk.
  unfold unused_clear in Hu. rewrite Hk in Hu. destruct Hu as [Hb [_ U]].
  pose proof (sweep16 _ chk_pon_conv_all c Hb) as S. unfold chk_pon_conv in S.
  pose proof (in_rangeb_ok c Hr) as Rb. rewrite (lo_small c Hb) in Rb. rewrite Hk, Rb, U, He in S.
  cbn [okind_eqb kind_eqb andb implb Z.eqb] in S.
  unfold mk_naki in Hc. destruct (clean c) as [v|]; [|easy]. injection Hc as <-. cbn [nk_conv] in *.
  rewrite Ha, F in S. cbn [implb negb] in S. apply Z.eqb_eq in S. rewrite field_seat, Hf in S.
  assert (K : (exists nk', In (NakiDecision p nk' false) (offered ds p) /\ nk_conv nk' = v) <->
              In v (map nk_conv (filter (fun nk => okind_eqb (spec_kind (nk_code nk)) (Some Pon)) l))).
  { rewrite B. split.
    - intros (nk' & I & Ev). apply in_map_iff in I as (x & Ex & I). injection Ex as ->.
      apply in_map_iff. exists nk'. split; [exact Ev|]. apply filter_In. split; [exact I|].
      assert (Ic : In (NakiDecision p nk' false) (offered ds p)) by (rewrite B; apply in_map_iff; eauto).
      destruct (each_offered _ q12_all player hands t r ds p _ Hl Hpl Ht Hp E Ic) as (_ & x & Ex & Q12).
      injection Ex as <-. unfold q12 in Q12. unfold_and Q12. rewrite <- Q12, Ev, Sk. reflexivity.
    - intros I. apply in_map_iff in I as (nk' & Ev & I). apply filter_In in I as [I _].
      exists nk'. split; [|exact Ev]. apply in_map_iff. eauto. }
  rewrite K, C. unfold view_of. cbn [v_two v_seat].
  pose proof (Z.mod_pos_bound (field c 9 7) 3 ltac:(lia)).
  destruct (Z.eqb_spec (hget (hand_of hands p) t) 2); cbn [In]; split; intros; lia.
Qed.

(** ** C16, the rule that is actually applied to black fives *)
Definition q16b (t : Z) (r : bool) (v : view) (nk : naki) : bool :=
  match get_exposed (nk_code nk) with
  | Ok (ex, a) =>
      implb (okind_eqb (spec_kind (nk_code nk)) (Some Chi) && v_red v &&
             existsb five_typeb (map tile_type ex) && negb (has_red_five (all_tiles ex a)))
            (v_bpos v)
  | Err _ => false
  end.
Lemma q16b_all : all_cases (each q16b) = true.
Proof. vm_cast_no_check (eq_refl true). Qed.

Lemma black_rule player hands t r ds p nk ex a x :
  length hands = 4%nat -> 0 <= player < 4 -> 0 <= t < 34 -> 0 <= p < 4 ->
  decision_mask player hands t r = Ok ds -> In (NakiDecision p nk false) (offered ds p) ->
  spec_kind (nk_code nk) = Some Chi -> get_exposed (nk_code nk) = Ok (ex, a) ->
  In x ex -> five_type (tile_type x) -> has_red_five (all_tiles ex a) = false ->
  holds_red (hand_of hands p) t -> 2 <= hget (hand_of hands p) t.
Proof.
  intros Hl Hpl Ht Hp E Hin Hk He Hx H5 Hr Hh.
  destruct (each_offered _ q16b_all player hands t r ds p _ Hl Hpl Ht Hp E Hin) as (Ne & nk' & Eq & Q).
  injection Eq as <-. unfold q16b in Q. rewrite He, Hk, Hr in Q.
  unfold view_of in Q. cbn [v_red v_bpos] in Q. unfold holds_red in Hh. apply Z.ltb_lt in Hh. rewrite Hh in Q.
  replace (existsb five_typeb (map tile_type ex)) with true in Q.
  - cbn in Q. apply Z.ltb_lt in Q. clear - Q. lia.
  - symmetry. apply existsb_exists. exists (tile_type x). split; [now apply in_map|].
    unfold five_typeb, five_type in *. rewrite !orb_true_iff, !Z.eqb_eq. tauto.
Qed.

Lemma hget_nonneg h : forallb (fun z => 0 <=? z) h = true -> forall x, 0 <= hget h x.
Proof.
  intros F x. unfold hget, vget. rewrite forallb_forall in F.
  destruct (Nat.lt_ge_cases (Z.to_nat x) (length h)) as [H|H].
  - apply Z.leb_le, F, nth_In, H.
  - rewrite nth_overflow by exact H. reflexivity.
Qed.
