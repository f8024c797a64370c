(** Exactly which chi candidates decision_mask offers, and which logged calls find theirs. *)
From Coq Require Import ZArith List Bool Lia.
From Verif Require Import Base Naki Decision SpecMeld SpecDecision NakiProofs NakiLemmas NakiLemmas2 DecisionProofs DecisionLemmas.
Import ListNotations.
Open Scope Z_scope.

(** The shape of a chi code: suit, lowest number, claimed place, red five used *)
Definition shape (c : Z) : option (Z * Z * Z * bool) :=
  match spec_kind c, get_exposed c with
  | Some Chi, Ok ([x; y], Some a) =>
      let lo := Z.min (tile_type a) (tile_type x) in
      let w := tile_type a - lo in
      if leqb (insert_at (Z.to_nat w) (tile_type a) [tile_type x; tile_type y]) [lo; lo + 1; lo + 2] && (0 <=? lo) && (lo <? 27) && (lo mod 9 <? 7) && (w <? 3)
      then Some (lo / 9, lo mod 9, w, has_red_five [a; x; y]) else None
  | _, _ => None
  end.

Lemma shape_ok c s n w red : shape c = Some (s, n, w, red) -> chi_of c s n w red.
Proof.
  unfold shape, chi_of. destruct (spec_kind c) as [[]|]; try discriminate. destruct (get_exposed c) as [[ex [a|]]|]; try discriminate.
  2: destruct ex as [|x [|y [|]]]; discriminate.
  destruct ex as [|x [|y [|z ex]]]; try discriminate. set (lo := Z.min (tile_type a) (tile_type x)).
  destruct (leqb _ _ && _ && _ && _ && _) eqn:E; [|discriminate]. intros H. injection H as <- <- <- <-. unfold_and E.
  pose proof (Z.div_mod lo 9 ltac:(lia)) as D. pose proof (Z.mod_pos_bound lo 9 ltac:(lia)). split; [reflexivity|].
  assert (0 <= tile_type a - lo) by (subst lo; lia).
  split; [split; [apply Z.div_pos; lia|apply Z.div_lt_upper_bound; lia]|]. split; [lia|]. split; [lia|].
  exists [x; y], a. split; [reflexivity|]. split; [|reflexivity]. cbn [map]. rewrite E. repeat f_equal; lia.
Qed.
Lemma shape_complete c s n w red : chi_of c s n w red -> shape c = Some (s, n, w, red).
Proof.
  unfold shape, chi_of. intros (K & Bs & Bn & Bw & ex & a & -> & E & R). rewrite K.
  assert (L : length ex = 2%nat).
  { apply (f_equal (@length Z)) in E. unfold insert_at in E. rewrite app_length in E. cbn [length] in E.
    pose proof (firstn_skipn (Z.to_nat w) (map tile_type ex)) as F. apply (f_equal (@length Z)) in F. rewrite app_length, map_length in F. lia. }
  destruct ex as [|x [|y [|]]]; try discriminate L. cbn [map] in E.
  assert (C : w = 0 \/ w = 1 \/ w = 2) by lia.
  assert (M : Z.min (tile_type a) (tile_type x) = 9 * s + n /\ tile_type a - (9 * s + n) = w /\ insert_at (Z.to_nat w) (tile_type a) [tile_type x; tile_type y] = [9 * s + n; 9 * s + n + 1; 9 * s + n + 2]).
  { assert (W : insert_at (Z.to_nat w) (tile_type a) [tile_type x; tile_type y] = if w =? 0 then [tile_type a; tile_type x; tile_type y] else if w =? 1 then [tile_type x; tile_type a; tile_type y] else [tile_type x; tile_type y; tile_type a])
      by (destruct C as [-> | [-> | ->]]; reflexivity).
    generalize dependent (9 * s + n). intros b E. split; [|split; [|exact E]]; rewrite W in E; destruct C as [-> | [-> | ->]]; cbn [Z.eqb Pos.eqb] in E;
    injection E as E1 E2 E3; lia. }
  destruct M as (M1 & M2 & M3). rewrite M1, M2, M3.
  assert (D : (9 * s + n) / 9 = s /\ (9 * s + n) mod 9 = n).
  { split; [symmetry; apply (Z.div_unique _ 9 s n); lia|symmetry; apply (Z.mod_unique _ 9 s n); lia]. }
  destruct D as [D1 D2]. rewrite D1, D2.
  replace (leqb _ _) with true by (symmetry; clear; induction [9 * s + n; 9 * s + n + 1; 9 * s + n + 2] as [|z l IH]; cbn; [reflexivity|now rewrite Z.eqb_refl]).
  rewrite (proj2 (Z.leb_le 0 (9 * s + n))), (proj2 (Z.ltb_lt (9 * s + n) 27)), (proj2 (Z.ltb_lt n 7)), (proj2 (Z.ltb_lt w 3)) by lia. cbn [andb]. now rewrite R.
Qed.

(** The rule as a list *)
Definition beside (n w : Z) : bool := ((n =? 4) && negb (w =? 0)) || ((n + 1 =? 4) && negb (w =? 1)) || ((n + 2 =? 4) && negb (w =? 2)).
Definition chi_list (t : Z) (r : bool) (v : view) : list (Z * Z * Z * bool) :=
  flat_map (fun w =>
    let n := t mod 9 - w in
    if v_next v && (t <? 27) && (0 <=? n) && (n <? 7) && (if w =? 0 then v_high v else if w =? 1 then v_mid v else v_low v) then
      if beside n w then
        if v_red v then
          let w' := if w =? 1 then (if t mod 9 =? 3 then 0 else 2) else w in
          (t / 9, n, w', true) :: (if v_bpos v then [(t / 9, n, w', false)] else [])
        else [(t / 9, n, w, false)]
      else [(t / 9, n, w, r && (t mod 9 =? 4))]
    else []) [0; 1; 2].

Definition shape_eqb (a b : Z * Z * Z * bool) : bool :=
  let '(s, n, w, r) := a in let '(s', n', w', r') := b in (s =? s') && (n =? n') && (w =? w') && Bool.eqb r r'.
Lemma shape_eqb_eq a b : shape_eqb a b = true <-> a = b.
Proof.
  destruct a as [[[s n] w] r], b as [[[s' n'] w'] r']. unfold shape_eqb. rewrite !andb_true_iff, !Z.eqb_eq, Bool.eqb_true_iff.
  split; [intros [[[-> ->] ->] ->]; reflexivity|intros E; injection E; auto].
Qed.
Definition shapes (l : list naki) : list (Z * Z * Z * bool) := flat_map (fun nk => match shape (nk_code nk) with Some x => [x] | None => [] end) l.
Definition chk_shapes t r v : bool :=
  match mask_abs t r v with
  | Ok l => forallb (fun nk => negb (okind_eqb (spec_kind (nk_code nk)) (Some Chi)) || match shape (nk_code nk) with Some _ => true | None => false end) l &&
      forallb (fun x => existsb (shape_eqb x) (chi_list t r v)) (shapes l) && forallb (fun x => existsb (shape_eqb x) (shapes l)) (chi_list t r v)
  | Err _ => false
  end.
Lemma chk_shapes_all : all_cases chk_shapes = true.
Proof. vm_cast_no_check (eq_refl true). Qed.

Lemma existsb_shape x l : existsb (shape_eqb x) l = true <-> In x l.
Proof. rewrite existsb_exists. split; [intros (y & I & E); apply shape_eqb_eq in E; now subst|intros I; exists x; split; [exact I|now apply shape_eqb_eq]]. Qed.

Lemma chi_candidates player hands t r ds p : length hands = 4%nat -> 0 <= player < 4 -> 0 <= t < 34 -> 0 <= p < 4 -> p <> player ->
  decision_mask player hands t r = Ok ds -> forall s n w red,
  (exists nk, In (NakiDecision p nk false) (offered ds p) /\ chi_of (nk_code nk) s n w red) <-> In (s, n, w, red) (chi_list t r (view_of player p (hand_of hands p) t)).
Proof.
  intros Hl Hpl Ht Hp Ne E s n w red.
  destruct (mask_total player hands t r Hl Hpl Ht) as (ds' & E' & _ & _ & M). rewrite E in E'. injection E' as <-. destruct (M p Hp Ne) as (l & A & B).
  pose proof (all_cases_ok _ chk_shapes_all t r player p (hand_of hands p) Ht Hpl Hp Ne) as C. unfold chk_shapes in C. rewrite A in C.
  apply andb_prop in C as [C C3]. apply andb_prop in C as [_ C2]. rewrite forallb_forall in C2, C3. rewrite B. split.
  - intros (nk & I & X). apply in_map_iff in I as (nk' & Q & I). injection Q as ->. apply existsb_shape, C2. unfold shapes. apply in_flat_map.
    exists nk. split; [exact I|]. rewrite (shape_complete _ _ _ _ _ X). now left.
  - intros I. apply C3, existsb_shape in I. unfold shapes in I. apply in_flat_map in I as (nk & I & X). exists nk. split; [apply in_map_iff; eauto|].
    apply shape_ok. destruct (shape (nk_code nk)) as [y|]; [|destruct X]. destruct X as [->|[]]. reflexivity.
Qed.

Lemma beside_spec t w : 0 <= w < 3 -> beside (t mod 9 - w) w = true <-> five_beside t w.
Proof.
  intros B. unfold beside, five_beside. rewrite !orb_true_iff, !andb_true_iff, !negb_true_iff, !Z.eqb_eq, !Z.eqb_neq. split.
  - intros [[[A C]|[A C]]|[A C]]; [exists 0|exists 1|exists 2]; lia.
  - intros (i & I & N & E). assert (J : i = 0 \/ i = 1 \/ i = 2) by lia. destruct J as [-> | [-> | ->]]; lia.
Qed.

Lemma held_spec h t w : (forall x, 0 <= hget h x) -> 0 <= w < 3 ->
  ((0 <=? t mod 9 - w) && (t mod 9 - w <? 7) && (if w =? 0 then both h (t + 1) (t + 2) else if w =? 1 then both h (t - 1) (t + 1) else both h (t - 2) (t - 1)) = true <-> run_held h t w).
Proof.
  intros N B. unfold run_held. rewrite !andb_true_iff, Z.leb_le, Z.ltb_lt.
  assert (P : forall i j, both h i j = true <-> 0 < hget h i /\ 0 < hget h j).
  { intros i j. split; [intros Q; apply both_true in Q; [lia|exact N]|intros [Q1 Q2]; now apply both_intro]. }
  assert (X : (forall i, 0 <= i < 3 -> i <> w -> 0 < hget h (t - w + i)) <-> (w <> 0 -> 0 < hget h (t - w + 0)) /\ (w <> 1 -> 0 < hget h (t - w + 1)) /\ (w <> 2 -> 0 < hget h (t - w + 2))).
  { split; [intros Q; repeat split; intros W; apply Q; lia|]. intros (Q0 & Q1 & Q2) i I W. assert (K : i = 0 \/ i = 1 \/ i = 2) by lia. destruct K as [-> | [-> | ->]]; auto. }
  rewrite X. assert (C : w = 0 \/ w = 1 \/ w = 2) by lia. destruct C as [-> | [-> | ->]]; cbn [Z.eqb Pos.eqb]; rewrite P.
  - replace (t - 0 + 1) with (t + 1) by lia. replace (t - 0 + 2) with (t + 2) by lia. split; [intros [[A1 A2] [A3 A4]]; split; [lia|]; split; [lia|]; split; [|split]; intros W; try (now elim W); assumption|intros (_ & [A1 A2] & Q0 & Q1 & Q2); split; [split; assumption|]; split; first [apply Q0; discriminate|apply Q1; discriminate|apply Q2; discriminate]].
  - replace (t - 1 + 0) with (t - 1) by lia. replace (t - 1 + 2) with (t + 1) by lia. split; [intros [[A1 A2] [A3 A4]]; split; [lia|]; split; [lia|]; split; [|split]; intros W; try (now elim W); assumption|intros (_ & [A1 A2] & Q0 & Q1 & Q2); split; [split; assumption|]; split; first [apply Q0; discriminate|apply Q1; discriminate|apply Q2; discriminate]].
  - replace (t - 2 + 0) with (t - 2) by lia. replace (t - 2 + 1) with (t - 1) by lia. split; [intros [[A1 A2] [A3 A4]]; split; [lia|]; split; [lia|]; split; [|split]; intros W; try (now elim W); assumption|intros (_ & [A1 A2] & Q0 & Q1 & Q2); split; [split; assumption|]; split; first [apply Q0; discriminate|apply Q1; discriminate|apply Q2; discriminate]].
Qed.

Lemma next_seat player p : 0 <= player < 4 -> p = (player + 1) mod 4 -> 0 <= p < 4 /\ p <> player /\ (p - player) mod 4 = 1 /\ (player - p) mod 4 = 3.
Proof.
  intros B ->. assert (C : player = 0 \/ player = 1 \/ player = 2 \/ player = 3) by lia.
  destruct C as [-> | [-> | [-> | ->]]]; cbv; repeat split; congruence.
Qed.

Lemma in_chi_list player p h t r s n w red : 0 <= t < 27 -> (forall x, 0 <= hget h x) -> (p - player) mod 4 = 1 ->
  In (s, n, w, red) (chi_list t r (view_of player p h t)) <-> s = t / 9 /\ chi_rule h t r n w red.
Proof.
  intros Bt N Nx. unfold chi_list. rewrite in_flat_map.
  assert (V : forall w0, 0 <= w0 < 3 ->
    In (s, n, w, red) (if v_next (view_of player p h t) && (t <? 27) && (0 <=? t mod 9 - w0) && (t mod 9 - w0 <? 7) && (if w0 =? 0 then v_high (view_of player p h t) else if w0 =? 1 then v_mid (view_of player p h t) else v_low (view_of player p h t)) then
      if beside (t mod 9 - w0) w0 then
        if v_red (view_of player p h t) then
          let w' := if w0 =? 1 then (if t mod 9 =? 3 then 0 else 2) else w0 in
          (t / 9, t mod 9 - w0, w', true) :: (if v_bpos (view_of player p h t) then [(t / 9, t mod 9 - w0, w', false)] else [])
        else [(t / 9, t mod 9 - w0, w0, false)]
      else [(t / 9, t mod 9 - w0, w0, r && (t mod 9 =? 4))]
    else []) <->
    run_held h t w0 /\ s = t / 9 /\ n = t mod 9 - w0 /\
      ((~ five_beside t w0 /\ w = w0 /\ red = r && (t mod 9 =? 4)) \/
       (five_beside t w0 /\ ~ holds_red h t /\ w = w0 /\ red = false) \/
       (five_beside t w0 /\ holds_red h t /\ w = (if w0 =? 1 then (if t mod 9 =? 3 then 0 else 2) else w0) /\ (red = true \/ 2 <= hget h t)))).
  { intros w0 W. unfold view_of. cbn [v_next v_high v_mid v_low v_red v_bpos]. rewrite Nx, (proj2 (Z.ltb_lt t 27)) by lia. cbn [Z.eqb Pos.eqb andb].
    pose proof (held_spec h t w0 N W) as H. pose proof (beside_spec t w0 W) as F.
    match goal with |- In _ (if ?c then _ else _) <-> _ => destruct c eqn:E0 end; [assert (E : run_held h t w0) by (now apply H)|].
    2: { split; [intros []|]. intros (Q & _). apply H in Q. discriminate Q. }
    destruct (beside _ _) eqn:E5.
    - assert (F5 : five_beside t w0) by (now apply F). unfold holds_red. destruct (Z.ltb_spec 0 (hget h (34 + t / 9))) as [R|R]; cbn [b2z].
      + cbn [In]. destruct (Z.ltb_spec 0 (hget h t - 1)); cbn [In]; split.
        * intros [Q|[Q|[]]]; injection Q as <- <- <- <-; (split; [exact E|]; split; [reflexivity|]; split; [reflexivity|]; right; right; repeat split; auto; right; lia).
        * intros (_ & -> & -> & [(Q & _)|[(_ & Q & _)|(_ & _ & -> & Q)]]); [contradiction|lia|]. destruct red; auto.
        * intros [Q|[]]; injection Q as <- <- <- <-; (split; [exact E|]; split; [reflexivity|]; split; [reflexivity|]; right; right; repeat split; auto).
        * intros (_ & -> & -> & [(Q & _)|[(_ & Q & _)|(_ & _ & -> & Q)]]); [contradiction|lia|]. destruct Q as [->|Q]; [auto|lia].
      + cbn [In]. split.
        * intros [Q|[]]; injection Q as <- <- <- <-; (split; [exact E|]; split; [reflexivity|]; split; [reflexivity|]; right; left; repeat split; auto; lia).
        * intros (_ & -> & -> & [(Q & _)|[(_ & _ & -> & ->)|(_ & Q & _)]]); [contradiction|auto|lia].
    - assert (F5 : ~ five_beside t w0) by (intros Q; apply F in Q; congruence). cbn [In]. split.
      + intros [Q|[]]; injection Q as <- <- <- <-; (split; [exact E|]; split; [reflexivity|]; split; [reflexivity|]; left; auto).
      + intros (_ & -> & -> & [(_ & -> & ->)|[(Q & _)|(Q & _)]]); [auto|contradiction|contradiction]. }
  assert (RB : forall b : bool, b = r && (t mod 9 =? 4) <-> (b = true <-> r = true /\ t mod 9 = 4)).
  { intros b. rewrite <- Z.eqb_eq. rewrite <- andb_true_iff. destruct b, (r && (t mod 9 =? 4)); intuition congruence. }
  split.
  - intros (w0 & I & X). assert (W : 0 <= w0 < 3) by (destruct I as [<-|[<-|[<-|[]]]]; lia). apply V in X; [|exact W].
    destruct X as (H & -> & -> & X). split; [reflexivity|]. destruct X as [(F & -> & X)|[(F & R & -> & ->)|(F & R & -> & X)]].
    + apply cr_no_five; [exact H|exact F|now apply RB].
    + now apply cr_black.
    + clear I. destruct (Z.eq_dec w0 1) as [E1|W1]; [subst w0; apply cr_middle; auto|rewrite (proj2 (Z.eqb_neq w0 1)) by exact W1; apply cr_with_red; auto].
  - intros (-> & X). destruct X as [w red H F R|w H F R|w red H F R Q W1|red w' H F R Q E].
    + exists w. split; [destruct H; assert (C : w = 0 \/ w = 1 \/ w = 2) by lia; cbn [In]; intuition auto|]. apply V; [apply H|]. repeat split; try apply H. left. repeat split; auto. now apply RB.
    + exists w. split; [destruct H; assert (C : w = 0 \/ w = 1 \/ w = 2) by lia; cbn [In]; intuition auto|]. apply V; [apply H|]. repeat split; try apply H. right; left. auto.
    + exists w. split; [destruct H; assert (C : w = 0 \/ w = 1 \/ w = 2) by lia; cbn [In]; intuition auto|]. apply V; [apply H|]. repeat split; try apply H. right; right.
      rewrite (proj2 (Z.eqb_neq w 1)) by exact W1. auto.
    + exists 1. split; [cbn [In]; auto|]. apply V; [lia|]. repeat split; try apply H. right; right. auto.
Qed.

Lemma chi_exact player hands t r ds : length hands = 4%nat -> 0 <= player < 4 -> 0 <= t < 27 ->
  let p := (player + 1) mod 4 in let h := hand_of hands p in
  (forall x, 0 <= hget h x) -> decision_mask player hands t r = Ok ds -> forall s n w red,
  (exists nk, In (NakiDecision p nk false) (offered ds p) /\ chi_of (nk_code nk) s n w red) <-> s = t / 9 /\ chi_rule h t r n w red.
Proof.
  intros Hl Hpl Ht p h N E s n w red. destruct (next_seat player p Hpl eq_refl) as (Bp & Ne & Nx & _).
  rewrite (chi_candidates player hands t r ds p Hl Hpl ltac:(lia) Bp Ne E). now apply in_chi_list.
Qed.

(** ** Labels of logged chi *)
(** A candidate's comparison code is that of the factory for its shape. *)
Definition q_conv (t : Z) (r : bool) (v : view) (nk : naki) : bool :=
  match shape (nk_code nk) with
  | Some (s, n, w, red) => match from_chi_info s n w red with Ok nf => nk_conv nk =? nk_conv nf | Err _ => false end
  | None => true
  end.
Lemma q_conv_all : all_cases (each q_conv) = true.
Proof. vm_cast_no_check (eq_refl true). Qed.

(** A logged chi code has the shape of its fields, and the comparison code the same. *)
Definition chk_logged c : bool :=
  implb (in_rangeb c && okind_eqb (spec_kind c) (Some Chi) && (field c 9 1 =? 0) && (from_who c =? 3))
  match shape c, clean c with
  | Some (s, n, w, red), Ok v =>
      match shape v with Some x => shape_eqb x (s, n, w, red) | None => false end &&
      match from_chi_info s n w red with Ok nf => v =? nk_conv nf | Err _ => false end
  | _, _ => false
  end.
Lemma chk_logged_all : sweep 16 chk_logged = true.
Proof. vm_cast_no_check (eq_refl true). Qed.

Lemma chi_of_inj c s n w red s' n' w' red' : chi_of c s n w red -> chi_of c s' n' w' red' -> s = s' /\ n = n' /\ w = w' /\ red = red'.
Proof. intros A B. apply shape_complete in A, B. rewrite A in B. injection B; auto. Qed.

Lemma chi_label_iff player hands t r ds c nk : length hands = 4%nat -> 0 <= player < 4 -> 0 <= t < 27 ->
  let p := (player + 1) mod 4 in let h := hand_of hands p in
  (forall x, 0 <= hget h x) -> decision_mask player hands t r = Ok ds ->
  mk_naki c = Ok nk -> spec_kind c = Some Chi -> in_range c -> unused_clear c -> from_who c = 3 ->
  exists s n w red, chi_of c s n w red /\
  ((exists nk', In (NakiDecision p nk' false) (offered ds p) /\ nk_conv nk' = nk_conv nk) <-> s = t / 9 /\ chi_rule h t r n w red).
Proof.
  intros Hl Hpl Ht p h N E Hc Hk Hr Hu Hf. destruct (next_seat player p Hpl eq_refl) as (Bp & Ne & Nx & _).
  pose proof Hu as Hu'. unfold unused_clear in Hu'. rewrite Hk in Hu'. destruct Hu' as [Hb U].
  pose proof (sweep16 _ chk_logged_all c Hb) as S. unfold chk_logged in S.
  pose proof (in_rangeb_ok c Hr) as Rb. rewrite (lo_small c Hb) in Rb. rewrite Hk, Rb, U, Hf in S. cbn [okind_eqb kind_eqb andb implb Z.eqb Pos.eqb] in S.
  destruct (shape c) as [[[[s n] w] red]|] eqn:Sh; [|discriminate S].
  unfold mk_naki in Hc. destruct (clean c) as [v|]; [|discriminate S]. injection Hc as <-. cbn [nk_conv].
  apply andb_prop in S as [S1 S2]. destruct (shape v) as [x|] eqn:Sv; [|discriminate S1]. apply shape_eqb_eq in S1. subst x.
  destruct (from_chi_info s n w red) as [nf|] eqn:Fi; [|discriminate S2]. apply Z.eqb_eq in S2.
  exists s, n, w, red. split; [now apply shape_ok|]. pose proof (chi_exact player hands t r ds Hl Hpl Ht N E s n w red) as X. cbv zeta in X. fold p in X. fold h in X. rewrite <- X. clear X. split.
  - intros (nk' & I & Q). exists nk'. split; [exact I|]. apply shape_ok.
    destruct (each_offered _ q12_all player hands t r ds p _ Hl Hpl ltac:(lia) Bp E I) as (_ & y & Ey & Q12). injection Ey as <-. unfold q12 in Q12. unfold_and Q12.
    rewrite <- Q12, Q. exact Sv.
  - intros (nk' & I & Q). exists nk'. split; [exact I|]. apply shape_complete in Q.
    destruct (each_offered _ q_conv_all player hands t r ds p _ Hl Hpl ltac:(lia) Bp E I) as (_ & y & Ey & Qc). injection Ey as <-. unfold q_conv in Qc. rewrite Q, Fi in Qc. apply Z.eqb_eq in Qc. congruence.
Qed.

Lemma types_of_chi c s n w red ex a : chi_of c s n w red -> get_exposed c = Ok (ex, Some a) ->
  0 <= s < 3 /\ 0 <= n < 7 /\ 0 <= w < 3 /\ has_red_five (a :: ex) = red /\ tile_type a = 9 * s + n + w /\
  forall i, In (9 * s + n + i) (map tile_type ex) <-> 0 <= i < 3 /\ i <> w.
Proof.
  intros (_ & Bs & Bn & Bw & ex' & a' & E' & I & R) E. rewrite E in E'. injection E' as <- <-. repeat (split; [assumption|]).
  assert (L : length ex = 2%nat).
  { apply (f_equal (@length Z)) in I. unfold insert_at in I. rewrite app_length in I. cbn [length] in I.
    pose proof (firstn_skipn (Z.to_nat w) (map tile_type ex)) as F. apply (f_equal (@length Z)) in F. rewrite app_length, map_length in F. lia. }
  destruct ex as [|x [|y [|]]]; try discriminate L. cbn [map] in I |- *. clear R L E.
  assert (C : w = 0 \/ w = 1 \/ w = 2) by lia.
  assert (W : insert_at (Z.to_nat w) (tile_type a) [tile_type x; tile_type y] = if w =? 0 then [tile_type a; tile_type x; tile_type y] else if w =? 1 then [tile_type x; tile_type a; tile_type y] else [tile_type x; tile_type y; tile_type a])
    by (destruct C as [-> | [-> | ->]]; reflexivity).
  rewrite W in I. clear W. generalize dependent (9 * s + n). intros b I.
  destruct C as [-> | [-> | ->]]; cbn [Z.eqb Pos.eqb] in I; injection I as -> -> ->; (split; [lia|]); intros i; cbn [In]; lia.
Qed.

Lemma red_type x : red_fiveb x = true -> tile_type x mod 9 = 4 /\ five_type (tile_type x).
Proof. unfold red_fiveb. rewrite !orb_true_iff, !Z.eqb_eq. intros [[-> | ->] | ->]; split; try reflexivity; unfold five_type; cbn; auto. Qed.

Lemma chi_label_exact player hands c nk t r ds ex a s n w red : length hands = 4%nat -> 0 <= player < 4 -> 0 <= t < 34 ->
  let p := (player + 1) mod 4 in let h := hand_of hands p in
  decision_mask player hands t r = Ok ds ->
  mk_naki c = Ok nk -> in_range c -> unused_clear c -> from_who c = 3 -> chi_of c s n w red ->
  get_exposed c = Ok (ex, Some a) -> tile_type a = t -> red_fiveb a = r ->
  (forall x, 0 <= hget h x) -> holds_all h (map tile_type ex) -> (has_red_five ex = true -> holds_red h t) ->
  ((exists nk', In (NakiDecision p nk' false) (offered ds p) /\ nk_conv nk' = nk_conv nk) <->
   ~ (five_beside t w /\ holds_red h t /\ (w = 1 \/ (has_red_five ex = false /\ hget h t < 2)))).
Proof.
  intros Hl Hpl Ht p h E Hc Hr Hu Hf Hs He Ha Hra N Hh Hred.
  pose proof (types_of_chi _ _ _ _ _ _ _ Hs He) as (Bs & Bn & Bw & R & A & Ty). rewrite Ha in A.
  assert (T : t / 9 = s /\ t mod 9 = n + w) by (split; symmetry; [apply (Z.div_unique t 9 s (n + w))|apply (Z.mod_unique t 9 s (n + w))]; lia).
  destruct T as [Td Tm].
  destruct (chi_label_iff player hands t r ds c nk Hl Hpl ltac:(lia) N E Hc (proj1 Hs) Hr Hu Hf) as (s' & n' & w' & red' & Hs' & X).
  destruct (chi_of_inj _ _ _ _ _ _ _ _ _ Hs Hs') as (<- & <- & <- & <-). fold p in X. fold h in X. rewrite X. clear X Hs'.
  assert (H : run_held h t w).
  { split; [lia|]. split; [lia|]. intros i I J. specialize (Hh (9 * s + n + i)). replace (t - w + i) with (9 * s + n + i) by lia.
    assert (K : In (9 * s + n + i) (map tile_type ex)) by (now apply Ty). apply (count_occ_In Z.eq_dec) in K. lia. }
  assert (R5 : has_red_five ex = true -> five_beside t w).
  { unfold has_red_five. rewrite existsb_exists. intros (x & I & Q). apply red_type in Q as [Q _].
    assert (K : In (tile_type x) (map tile_type ex)) by (apply in_map_iff; eauto).
    replace (tile_type x) with (9 * s + n + (tile_type x - (9 * s + n))) in K by lia. apply Ty in K as (K1 & K2).
    exists (tile_type x - (9 * s + n)). repeat split; try lia. set (i := tile_type x - (9 * s + n)) in *.
    replace (tile_type x) with (n + i + s * 9) in Q by lia. rewrite Z.mod_add, Z.mod_small in Q by lia. lia. }
  assert (A5 : r = true -> t mod 9 = 4) by (intros ->; apply red_type in Hra as [Q _]; congruence).
  assert (NB : five_beside t w -> t mod 9 <> 4) by (intros (i & I & J & K) Q; lia).
  assert (RR : red = (r || has_red_five ex)%bool) by (rewrite <- R, <- Hra; reflexivity).
  split.
  - intros (_ & X) (F & Q & Z). remember n as n0 eqn:En in X. remember w as w0 eqn:Ew in X.
    destruct X as [w0 red H0 F0 R0|w0 H0 F0 Q0|w0 red H0 F0 Q0 C0 W0|red w0 H0 F0 Q0 C0 W0].
    + subst w0. contradiction.
    + contradiction.
    + subst w0. destruct Z as [Z|[Z1 Z2]]; [contradiction|]. destruct C0 as [C0|C0]; [|lia]. rewrite C0, Z1, orb_false_r in RR. elim (NB F). apply A5. congruence.
    + assert (w = 1) by lia. rewrite W0 in Ew. destruct (t mod 9 =? 3); lia.
  - intros NBad. split; [congruence|]. replace n with (t mod 9 - w) by lia. destruct (beside (t mod 9 - w) w) eqn:B5.
    + assert (F : five_beside t w) by (now apply beside_spec). specialize (NB F).
      assert (Er : r = false) by (destruct r; [elim NB; auto|reflexivity]). rewrite Er in RR. cbn [orb] in RR.
      destruct (Z.lt_ge_cases 0 (hget h (34 + t / 9))) as [Q|Q].
      * apply cr_with_red; [exact H|exact F|exact Q| |intros W; apply NBad; auto]. destruct red; [auto|]. right. destruct (Z.le_gt_cases 2 (hget h t)); [assumption|]. elim NBad. repeat split; auto.
      * assert (red = false) as ->. { destruct red; [|reflexivity]. symmetry in RR. specialize (Hred RR). unfold holds_red in Hred. lia. }
        apply cr_black; [exact H|exact F|]. unfold holds_red. lia.
    + assert (F : ~ five_beside t w) by (intros Q; apply beside_spec in Q; [congruence|lia]).
      apply cr_no_five; [exact H|exact F|]. destruct (has_red_five ex); [elim F; auto|]. rewrite RR, orb_false_r. split; [intros ->; auto|tauto].
Qed.

(** ** Labels of logged pons of fives *)
Definition chk_pon5 c : bool :=
  implb (okind_eqb (spec_kind c) (Some Pon) && in_rangeb c && (field c 7 2 =? 0))
  match clean c, get_exposed c with
  | Ok v, Ok (ex, Some a) =>
      let w := field c 9 7 mod 3 in let red := has_red_five (a :: ex) in
      implb (five_typeb (tile_type a))
        ((v =? field c 0 2 + 8 + 512 * (3 * tile_type a + (if red then (if w =? 0 then 0 else 1) else w)) + (if red then 96 else 0)) &&
         Bool.eqb (red_fiveb a) (red && (w =? 0)) && negb (red_fiveb a && has_red_five ex))
  | _, _ => false
  end.
Lemma chk_pon5_all : sweep 16 chk_pon5 = true.
Proof. vm_cast_no_check (eq_refl true). Qed.
Definition chk_pon5_cand t (r : bool) v : bool :=
  implb (five_typeb t)
  match mask_abs t r v with
  | Ok l => leqb (map nk_conv (filter (fun nk => okind_eqb (spec_kind (nk_code nk)) (Some Pon)) l))
                 (if v_red v then (if v_two v then [v_seat v + 8 + 512 * (3 * t + 1) + 96] else []) ++ (if v_b2 v then [v_seat v + 8 + 512 * (3 * t)] else [])
                  else if v_two v then [if r then v_seat v + 8 + 512 * (3 * t + 1) + 96 else v_seat v + 8 + 512 * (3 * t)] else [])
  | Err _ => false
  end.
Lemma chk_pon5_cand_all : all_cases chk_pon5_cand = true.
Proof. vm_cast_no_check (eq_refl true). Qed.

Lemma pon_five_label player hands c nk t r ds ex a p :
  length hands = 4%nat -> 0 <= player < 4 -> 0 <= p < 4 -> p <> player -> five_type t ->
  decision_mask player hands t r = Ok ds ->
  mk_naki c = Ok nk -> spec_kind c = Some Pon -> in_range c -> unused_clear c -> from_who c = (player - p) mod 4 ->
  get_exposed c = Ok (ex, Some a) -> tile_type a = t -> red_fiveb a = r ->
  let h := hand_of hands p in
  ((exists nk', In (NakiDecision p nk' false) (offered ds p) /\ nk_conv nk' = nk_conv nk) <->
   (has_red_five ex = true /\ holds_red h t /\ hget h t = 2) \/
   (has_red_five (a :: ex) = false /\ field c 9 7 mod 3 = 0 /\ ((holds_red h t /\ hget h t = 3) \/ (~ holds_red h t /\ hget h t = 2)))).
Proof.
  intros Hl Hpl Hp Ne H5 E Hc Hk Hr Hu Hf He Ha Hra h.
  assert (Ht : 0 <= t < 34) by (unfold five_type in H5; lia).
  assert (F : five_typeb t = true) by (unfold five_typeb, five_type in *; rewrite !orb_true_iff, !Z.eqb_eq; tauto).
  destruct (mask_total player hands t r Hl Hpl Ht) as (ds' & E' & _ & _ & M). rewrite E in E'. injection E' as <-. destruct (M p Hp Ne) as (l & A & B).
  pose proof (all_cases_ok _ chk_pon5_cand_all t r player p (hand_of hands p) Ht Hpl Hp Ne) as C.
  unfold chk_pon5_cand in C. rewrite F, A in C. cbn [implb] in C. apply leqb_eq in C.
  pose proof (normalise c nk ex (Some a) Hc He) as (_ & Sk & _). rewrite Hk in Sk.
  unfold unused_clear in Hu. rewrite Hk in Hu. destruct Hu as [Hb [_ U]].
  pose proof (sweep16 _ chk_pon5_all c Hb) as S. unfold chk_pon5 in S.
  pose proof (in_rangeb_ok c Hr) as Rb. rewrite (lo_small c Hb) in Rb. rewrite Hk, Rb, U, He in S. cbn [okind_eqb kind_eqb andb implb Z.eqb] in S.
  unfold mk_naki in Hc. destruct (clean c) as [v|]; [|easy]. injection Hc as <-. cbn [nk_conv] in *. cbv zeta in S.
  rewrite Ha, F in S. cbn [implb] in S. apply andb_prop in S as [S S1]. apply andb_prop in S as [S S0]. apply Z.eqb_eq in S. apply eqb_prop in S0. rewrite field_seat, Hf in S. rewrite Hra in S0.
  assert (K : (exists nk', In (NakiDecision p nk' false) (offered ds p) /\ nk_conv nk' = v) <->
              In v (map nk_conv (filter (fun nk => okind_eqb (spec_kind (nk_code nk)) (Some Pon)) l))).
  { rewrite B. split.
    - intros (nk' & I & Ev). apply in_map_iff in I as (x & Ex & I). injection Ex as ->.
      apply in_map_iff. exists nk'. split; [exact Ev|]. apply filter_In. split; [exact I|].
      assert (Ic : In (NakiDecision p nk' false) (offered ds p)) by (rewrite B; apply in_map_iff; eauto).
      destruct (each_offered _ q12_all player hands t r ds p _ Hl Hpl Ht Hp E Ic) as (_ & x & Ex & Q12).
      injection Ex as <-. unfold q12 in Q12. unfold_and Q12. rewrite <- Q12, Ev, Sk. reflexivity.
    - intros I. apply in_map_iff in I as (nk' & Ev & I). apply filter_In in I as [I _].
      exists nk'. split; [|exact Ev]. apply in_map_iff. eauto. }
  rewrite K, C. clear K C A B M Sk He Rb E Hr Hk U Hf. unfold view_of. cbn [v_two v_seat v_red v_b2]. fold h. unfold holds_red.
  pose proof (Z.mod_pos_bound (field c 9 7) 3 ltac:(lia)) as Bw. set (w := field c 9 7 mod 3) in *. clearbody w.
  set (se := (player - p) mod 4) in *. clearbody se.
  assert (RX : has_red_five (a :: ex) = (red_fiveb a || has_red_five ex)%bool) by reflexivity. rewrite RX in *. rewrite Hra in *. clear RX.
  set (x := has_red_five ex) in *. clearbody x. rewrite S. clear S Hra Ha Hb F H5.
  destruct (Z.ltb_spec 0 (hget h (34 + t / 9))) as [Q|Q]; cbn [b2z];
  destruct (Z.eqb_spec (hget h t) 2) as [Q2|Q2]; try (destruct (Z.eqb_spec (hget h t - 1) 2) as [Q3|Q3]); destruct (Z.eqb_spec w 0) as [W|W]; destruct r, x;
    cbn [orb andb app In] in *; try discriminate S0; try discriminate S1; split; intros Y; first [lia | intuition (lia || congruence)].
Qed.
