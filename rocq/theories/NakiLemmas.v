(** The statements about meld codes used by PropsNaki.v. *)
From Coq Require Import ZArith List Bool Lia.
From Verif Require Import Base Naki SpecMeld NakiProofs.
Import ListNotations.
Open Scope Z_scope.

(** *** Boolean equality tests used by the exhaustive checkers *)
Fixpoint leqb (a b : list Z) : bool :=
  match a, b with
  | [], [] => true
  | x :: a, y :: b => (x =? y) && leqb a b
  | _, _ => false
  end.
Lemma leqb_eq a : forall b, leqb a b = true -> a = b.
Proof.
  induction a; destruct b; cbn; intros H; try easy.
  apply andb_prop in H as [H1 H2]. f_equal; [now apply Z.eqb_eq | auto].
Qed.
Definition oeqb (a b : option Z) : bool :=
  match a, b with Some x, Some y => x =? y | None, None => true | _, _ => false end.
Lemma oeqb_eq a b : oeqb a b = true -> a = b.
Proof. destruct a, b; cbn; intros; try easy. f_equal. now apply Z.eqb_eq. Qed.
Definition peqb (p q : pattern) : bool :=
  (p_color p =? p_color q) && (p_number p =? p_number q) && (p_which p =? p_which q) &&
  Bool.eqb (p_red p) (p_red q) && leqb (p_exposed p) (p_exposed q) && oeqb (p_acquired p) (p_acquired q).
Lemma peqb_eq p q : peqb p q = true -> p = q.
Proof.
  unfold peqb. intros H. repeat (apply andb_prop in H; destruct H as [H ?]).
  destruct p, q; cbn in *. f_equal; try (now apply Z.eqb_eq); auto using leqb_eq, oeqb_eq, eqb_prop.

Qed.
Definition reqb {A} (e : A -> A -> bool) (x y : res A) : bool :=
  match x, y with Ok a, Ok b => e a b | _, _ => false end.
Lemma reqb_eq {A} (e : A -> A -> bool) (x y : res A) :
  (forall a b, e a b = true -> a = b) -> reqb e x y = true -> x = y.
Proof. intros He. destruct x, y; cbn; intros; try easy. f_equal; auto. Qed.
Definition ex_eqb (a b : list Z * option Z) : bool := leqb (fst a) (fst b) && oeqb (snd a) (snd b).
Lemma ex_eqb_eq a b : ex_eqb a b = true -> a = b.
Proof.
  destruct a, b; unfold ex_eqb; cbn. intros H. apply andb_prop in H as [].
  f_equal; auto using leqb_eq, oeqb_eq.
Qed.
Definition nk_eqb (a b : naki) : bool := (nk_code a =? nk_code b) && (nk_conv a =? nk_conv b).
Lemma nk_eqb_eq a b : nk_eqb a b = true -> a = b.
Proof. destruct a, b; unfold nk_eqb; cbn; intros H; apply andb_prop in H as []; f_equal; now apply Z.eqb_eq. Qed.
Definition kind_eqb (a b : kind) : bool :=
  match a, b with Chi, Chi | Pon, Pon | Kakan, Kakan | Minkan, Minkan | Ankan, Ankan => true | _, _ => false end.
Definition okind_eqb (a b : option kind) : bool :=
  match a, b with Some x, Some y => kind_eqb x y | None, None => true | _, _ => false end.
Lemma okind_eqb_eq a b : okind_eqb a b = true -> a = b.
Proof. destruct a as [[]|], b as [[]|]; cbn; easy. Qed.

(** Universal statements over an integer range by evaluation. *)
Definition all_z (n : nat) (P : Z -> bool) : bool := forallb P (zrange n).
Lemma all_z_ok n P : all_z n P = true -> forall x, 0 <= x < Z.of_nat n -> P x = true.
Proof.
  unfold all_z, zrange. intros H x Hx. rewrite forallb_forall in H. apply H.
  apply in_map_iff. exists (Z.to_nat x). split; [lia|]. apply in_seq. lia.
Qed.
Definition all_b (P : bool -> bool) : bool := P true && P false.
Lemma all_b_ok P : all_b P = true -> forall b, P b = true.
Proof. unfold all_b. intros H b. apply andb_prop in H as []. now destruct b. Qed.

Ltac to_prop H :=
  lazymatch type of H with
  | (_ =? _) = true => apply Z.eqb_eq in H
  | (_ <=? _) = true => apply Z.leb_le in H
  | (_ <? _) = true => apply Z.ltb_lt in H
  | Bool.eqb _ _ = true => apply eqb_prop in H
  | leqb _ _ = true => apply leqb_eq in H
  | oeqb _ _ = true => apply oeqb_eq in H
  | okind_eqb _ _ = true => apply okind_eqb_eq in H
  | reqb ex_eqb _ _ = true => apply (reqb_eq _ _ _ ex_eqb_eq) in H
  | reqb nk_eqb _ _ = true => apply (reqb_eq _ _ _ nk_eqb_eq) in H
  | ex_eqb _ _ = true => apply ex_eqb_eq in H
  | peqb _ _ = true => apply peqb_eq in H
  | _ => idtac
  end.
Ltac unfold_and H :=
  repeat (apply andb_prop in H; let K := fresh "K" in destruct H as [H K]; to_prop K); to_prop H.

(** The five kind predicates at once. *)
Definition kinds (c : Z) := (is_chi c, is_pon c, is_kakan c, is_minkan c, is_ankan c).
Definition beq5 (a b : bool * bool * bool * bool * bool) : bool :=
  let '(a1, a2, a3, a4, a5) := a in let '(b1, b2, b3, b4, b5) := b in
  Bool.eqb a1 b1 && Bool.eqb a2 b2 && Bool.eqb a3 b3 && Bool.eqb a4 b4 && Bool.eqb a5 b5.
Lemma beq5_eq a b : beq5 a b = true -> a = b.
Proof.
  destruct a as [[[[a1 a2] a3] a4] a5], b as [[[[b1 b2] b3] b4] b5]. cbn.
  intros H. unfold_and H. now subst.
Qed.

Definition is_ok {A} (r : res A) : bool := match r with Ok _ => true | Err _ => false end.

(** *** Factories *)
Definition chk_chi c n w r : bool :=
  implb (implb r ((2 <=? n) && (n <=? 4)))
  match from_chi_info c n w r with
  | Ok nk =>
    match pattern_chi (nk_code nk) with
    | MkPat c' n' w' r' ex (Some a) =>
      (c' =? c) && (n' =? n) && (w' =? w) && Bool.eqb r' r &&
      okind_eqb (spec_kind (nk_code nk)) (Some Chi) &&
      beq5 (kinds (nk_code nk)) (true, false, false, false, false) &&
      (from_who (nk_code nk) =? 3) &&
      reqb ex_eqb (get_exposed (nk_code nk)) (Ok (ex, Some a)) &&
      leqb (map tile_type (insert_at (Z.to_nat w) a ex)) [9 * c + n; 9 * c + n + 1; 9 * c + n + 2] &&
      Bool.eqb (has_red_five (a :: ex)) r &&
      reqb nk_eqb (mk_naki (nk_code nk)) (Ok nk)
    | _ => false
    end
  | Err _ => false
  end.
Lemma chk_chi_all : all_z 3 (fun c => all_z 7 (fun n => all_z 3 (fun w => all_b (chk_chi c n w)))) = true.
Proof. vm_cast_no_check (eq_refl true). Qed.

Lemma chi_factory : forall c n w r,
  0 <= c < 3 -> 0 <= n < 7 -> 0 <= w < 3 -> (r = true -> 2 <= n <= 4) ->
  exists nk ex a,
    from_chi_info c n w r = Ok nk /\
    spec_kind (nk_code nk) = Some Chi /\
    kinds (nk_code nk) = (true, false, false, false, false) /\
    from_who (nk_code nk) = 3 /\
    pattern_chi (nk_code nk) = MkPat c n w r ex (Some a) /\
    get_exposed (nk_code nk) = Ok (ex, Some a) /\
    map tile_type (insert_at (Z.to_nat w) a ex) = [9 * c + n; 9 * c + n + 1; 9 * c + n + 2] /\
    has_red_five (a :: ex) = r /\
    mk_naki (nk_code nk) = Ok nk.
Proof.
  intros c n w r Hc Hn Hw Hr.
  pose proof (all_z_ok _ _ chk_chi_all c Hc) as H.
  pose proof (all_z_ok _ _ H n Hn) as H1. pose proof (all_z_ok _ _ H1 w Hw) as H2.
  pose proof (all_b_ok _ H2 r) as H3. clear H H1 H2. unfold chk_chi in H3.
  assert (E : implb r ((2 <=? n) && (n <=? 4)) = true).
  { destruct r; [|reflexivity]. specialize (Hr eq_refl). cbn. apply andb_true_intro; split; apply Z.leb_le; lia. }
  rewrite E in H3. cbn [implb] in H3.
  destruct (from_chi_info c n w r) as [nk|]; [|easy].
  destruct (pattern_chi (nk_code nk)) as [c' n' w' r' ex [a|]] eqn:Ep; [|easy].
  unfold_and H3.
  exists nk, ex, a. subst. repeat split; auto using beq5_eq; try lia.
Qed.

Definition chk_pon t w r s : bool :=
  implb (implb r (five_typeb t))
  match from_pon_info t w r (s + 1) with
  | Ok nk =>
    match pattern_pon (nk_code nk) with
    | MkPat c' n' w' r' ex (Some a) =>
      (9 * c' + n' =? t) && (w' =? w) && Bool.eqb r' r && (0 <=? n') && (n' <? 9) &&
      okind_eqb (spec_kind (nk_code nk)) (Some Pon) &&
      beq5 (kinds (nk_code nk)) (false, true, false, false, false) &&
      (from_who (nk_code nk) =? s + 1) &&
      reqb ex_eqb (get_exposed (nk_code nk)) (Ok (ex, Some a)) &&
      leqb (insert_at (Z.to_nat w) a ex) (if r then [4 * t; 4 * t + 1; 4 * t + 2] else [4 * t + 1; 4 * t + 2; 4 * t + 3]) &&
      Bool.eqb (has_red_five (a :: ex)) r &&
      reqb nk_eqb (mk_naki (nk_code nk)) (Ok nk)
    | _ => false
    end
  | Err _ => false
  end.
Lemma chk_pon_all : all_z 34 (fun t => all_z 2 (fun w => all_b (fun r => all_z 3 (chk_pon t w r)))) = true.
Proof. vm_cast_no_check (eq_refl true). Qed.

Lemma pon_factory : forall t w r s,
  0 <= t < 34 -> 0 <= w < 2 -> 1 <= s <= 3 -> (r = true -> five_type t) ->
  exists nk c n ex a,
    from_pon_info t w r s = Ok nk /\
    spec_kind (nk_code nk) = Some Pon /\
    kinds (nk_code nk) = (false, true, false, false, false) /\
    from_who (nk_code nk) = s /\
    pattern_pon (nk_code nk) = MkPat c n w r ex (Some a) /\ 9 * c + n = t /\ 0 <= n < 9 /\
    get_exposed (nk_code nk) = Ok (ex, Some a) /\
    insert_at (Z.to_nat w) a ex = (if r then [4 * t; 4 * t + 1; 4 * t + 2] else [4 * t + 1; 4 * t + 2; 4 * t + 3]) /\
    has_red_five (a :: ex) = r /\
    mk_naki (nk_code nk) = Ok nk.
Proof.
  intros t w r s Ht Hw Hs Hr.
  pose proof (all_z_ok _ _ chk_pon_all t Ht) as H.
  pose proof (all_z_ok _ _ H w Hw) as H1. pose proof (all_b_ok _ H1 r) as H2.
  pose proof (all_z_ok _ _ H2 (s - 1) ltac:(cbn; lia)) as H3. clear H H1 H2. unfold chk_pon in H3.
  replace (s - 1 + 1) with s in H3 by lia.
  assert (E : implb r (five_typeb t) = true).
  { destruct r; [|reflexivity]. specialize (Hr eq_refl). unfold five_typeb. destruct Hr as [-> | [-> | ->]]; reflexivity. }
  rewrite E in H3. cbn [implb] in H3.
  destruct (from_pon_info t w r s) as [nk|]; [|easy].
  destruct (pattern_pon (nk_code nk)) as [c' n' w' r' ex [a|]] eqn:Ep; [|easy].
  unfold_and H3.
  exists nk, c', n', ex, a. subst. repeat split; auto using beq5_eq; try lia.
Qed.

Definition chk_kakan t w : bool :=
  match from_kakan_info t w with
  | Ok nk =>
    match pattern_kakan (nk_code nk) with
    | MkPat c' n' w' r' [e] None =>
      (9 * c' + n' =? t) && (w' =? w) && Bool.eqb r' (five_typeb t) && (0 <=? n') && (n' <? 9) &&
      okind_eqb (spec_kind (nk_code nk)) (Some Kakan) &&
      beq5 (kinds (nk_code nk)) (false, false, true, false, false) &&
      (from_who (nk_code nk) =? 0) &&
      reqb ex_eqb (get_exposed (nk_code nk)) (Ok ([e], None)) &&
      (tile_type e =? t) && Bool.eqb (red_fiveb e) (five_typeb t && (w =? 0)) &&
      reqb nk_eqb (mk_naki (nk_code nk)) (Ok nk)
    | _ => false
    end
  | Err _ => false
  end.
Lemma chk_kakan_all : all_z 34 (fun t => all_z 2 (chk_kakan t)) = true.
Proof. vm_cast_no_check (eq_refl true). Qed.

Lemma kakan_factory : forall t w,
  0 <= t < 34 -> 0 <= w < 2 ->
  exists nk c n e,
    from_kakan_info t w = Ok nk /\
    spec_kind (nk_code nk) = Some Kakan /\
    kinds (nk_code nk) = (false, false, true, false, false) /\
    pattern_kakan (nk_code nk) = MkPat c n w (five_typeb t) [e] None /\ 9 * c + n = t /\ 0 <= n < 9 /\
    get_exposed (nk_code nk) = Ok ([e], None) /\
    tile_type e = t /\
    red_fiveb e = five_typeb t && (w =? 0) /\
    from_who (nk_code nk) = 0 /\
    mk_naki (nk_code nk) = Ok nk.
Proof.
  intros t w Ht Hw.
  pose proof (all_z_ok _ _ chk_kakan_all t Ht) as H.
  pose proof (all_z_ok _ _ H w Hw) as H3. clear H. unfold chk_kakan in H3.
  destruct (from_kakan_info t w) as [nk|]; [|easy].
  destruct (pattern_kakan (nk_code nk)) as [c' n' w' r' [|e [|]] [a|]] eqn:Ep; try easy.
  unfold_and H3.
  exists nk, c', n', e. subst. repeat split; auto using beq5_eq; try lia.
Qed.

Definition chk_minkan t s w : bool :=
  match from_minkan_info t (s + 1) w with
  | Ok nk =>
    match pattern_minkan (nk_code nk) with
    | MkPat c' n' w' r' ex (Some a) =>
      (9 * c' + n' =? t) && (w' =? w) && Bool.eqb r' (five_typeb t) && (0 <=? n') && (n' <? 9) &&
      okind_eqb (spec_kind (nk_code nk)) (Some Minkan) &&
      beq5 (kinds (nk_code nk)) (false, false, false, true, false) &&
      (from_who (nk_code nk) =? s + 1) &&
      reqb ex_eqb (get_exposed (nk_code nk)) (Ok (ex, Some a)) &&
      (a =? 4 * t + w) &&
      leqb (insert_at (Z.to_nat w) a ex) [4 * t; 4 * t + 1; 4 * t + 2; 4 * t + 3] &&
      Bool.eqb (is_ok (mk_naki (nk_code nk))) true
    | _ => false
    end
  | Err _ => false
  end.
Lemma chk_minkan_all : all_z 34 (fun t => all_z 3 (fun s => all_z 2 (chk_minkan t s))) = true.
Proof. vm_cast_no_check (eq_refl true). Qed.

Lemma minkan_factory : forall t s w,
  0 <= t < 34 -> 1 <= s <= 3 -> 0 <= w < 2 ->
  exists nk c n ex a,
    from_minkan_info t s w = Ok nk /\
    spec_kind (nk_code nk) = Some Minkan /\
    kinds (nk_code nk) = (false, false, false, true, false) /\
    from_who (nk_code nk) = s /\
    pattern_minkan (nk_code nk) = MkPat c n w (five_typeb t) ex (Some a) /\ 9 * c + n = t /\ 0 <= n < 9 /\
    get_exposed (nk_code nk) = Ok (ex, Some a) /\
    a = 4 * t + w /\
    insert_at (Z.to_nat w) a ex = [4 * t; 4 * t + 1; 4 * t + 2; 4 * t + 3].
Proof.
  intros t s w Ht Hs Hw.
  pose proof (all_z_ok _ _ chk_minkan_all t Ht) as H.
  pose proof (all_z_ok _ _ H (s - 1) ltac:(cbn; lia)) as H1. pose proof (all_z_ok _ _ H1 w Hw) as H3.
  clear H H1. unfold chk_minkan in H3. replace (s - 1 + 1) with s in H3 by lia.
  destruct (from_minkan_info t s w) as [nk|]; [|easy].
  destruct (pattern_minkan (nk_code nk)) as [c' n' w' r' ex [a|]] eqn:Ep; try easy.
  unfold_and H3.
  exists nk, c', n', ex, a. subst. repeat split; auto using beq5_eq; try lia.
Qed.

Definition chk_ankan t : bool :=
  match from_ankan_info t with
  | Ok nk =>
    match pattern_ankan (nk_code nk) with
    | MkPat c' n' w' r' ex None =>
      (9 * c' + n' =? t) && (w' =? 0) && Bool.eqb r' (five_typeb t) && (0 <=? n') && (n' <? 9) &&
      okind_eqb (spec_kind (nk_code nk)) (Some Ankan) &&
      beq5 (kinds (nk_code nk)) (false, false, false, false, true) &&
      (from_who (nk_code nk) =? 0) &&
      reqb ex_eqb (get_exposed (nk_code nk)) (Ok (ex, None)) &&
      leqb ex [4 * t; 4 * t + 1; 4 * t + 2; 4 * t + 3] &&
      reqb nk_eqb (mk_naki (nk_code nk)) (Ok nk)
    | _ => false
    end
  | Err _ => false
  end.
Lemma chk_ankan_all : all_z 34 chk_ankan = true.
Proof. vm_cast_no_check (eq_refl true). Qed.

Lemma ankan_factory : forall t,
  0 <= t < 34 ->
  exists nk c n ex,
    from_ankan_info t = Ok nk /\
    spec_kind (nk_code nk) = Some Ankan /\
    kinds (nk_code nk) = (false, false, false, false, true) /\
    from_who (nk_code nk) = 0 /\
    pattern_ankan (nk_code nk) = MkPat c n 0 (five_typeb t) ex None /\ 9 * c + n = t /\ 0 <= n < 9 /\
    get_exposed (nk_code nk) = Ok (ex, None) /\
    ex = [4 * t; 4 * t + 1; 4 * t + 2; 4 * t + 3] /\
    mk_naki (nk_code nk) = Ok nk.
Proof.
  intros t Ht.
  pose proof (all_z_ok _ _ chk_ankan_all t Ht) as H3. unfold chk_ankan in H3.
  destruct (from_ankan_info t) as [nk|]; [|easy].
  destruct (pattern_ankan (nk_code nk)) as [c' n' w' r' ex [a|]] eqn:Ep; try easy.
  unfold_and H3.
  exists nk, c', n', ex. subst. repeat split; auto using beq5_eq; try lia.
Qed.

(** *** Classification *)
Definition chk_kind r : bool :=
  let sk := spec_kind r in
  match sk with
  | Some k => is_ok (clean r) && is_ok (get_exposed r)
  | None => match clean r, get_exposed r with Err ValueError, Err ValueError => true | _, _ => false end
  end &&
  Bool.eqb (is_chi r) (okind_eqb (sk) (Some Chi)) &&
  Bool.eqb (is_pon r) (okind_eqb (sk) (Some Pon)) &&
  Bool.eqb (is_minkan r) (okind_eqb (sk) (Some Minkan)) &&
  Bool.eqb (is_ankan r) (okind_eqb (sk) (Some Ankan)) &&
  Bool.eqb (is_kakan r && negb (is_pon r)) (okind_eqb (sk) (Some Kakan)) &&
  Bool.eqb (is_kakan r && is_pon r) (okind_eqb (sk) (Some Pon) && (field r 4 1 =? 1)).
Lemma chk_kind_all : sweep 16 chk_kind = true.
Proof. vm_cast_no_check (eq_refl true). Qed.
Lemma chk_kind_at c : chk_kind (lo c) = true.
Proof. exact (sweep16 _ chk_kind_all _ (lo_range c)). Qed.

Lemma okind_eqb_true a b : okind_eqb a b = true <-> a = b.
Proof. split; [apply okind_eqb_eq|]. intros ->. destruct b as [[]|]; reflexivity. Qed.

Lemma eqb_iff a b k : a = okind_eqb b k -> a = true <-> b = k.
Proof. intros ->. apply okind_eqb_true. Qed.

Lemma classify c :
  (spec_kind c <> None -> (exists nk, mk_naki c = Ok nk) /\ exists e, get_exposed c = Ok e) /\
  (spec_kind c = None -> mk_naki c = Err ValueError /\ get_exposed c = Err ValueError).
Proof.
  pose proof (chk_kind_at c) as H. unfold chk_kind in H. cbv zeta in H. unfold_and H.
  unfold mk_naki. rewrite spec_kind_lo, clean_lo, get_exposed_lo.
  destruct (spec_kind (lo c)); split; intros Hk; try congruence.
  - apply andb_prop in H as [Ha Hb].
    destruct (clean (lo c)), (get_exposed (lo c)); try easy. cbn. eauto.
  - destruct (clean (lo c)) as [|[]]; try easy. destruct (get_exposed (lo c)) as [|[]]; easy.
Qed.

Lemma kind_predicates c :
  (is_chi c = true <-> spec_kind c = Some Chi) /\
  (is_pon c = true <-> spec_kind c = Some Pon) /\
  (is_kakan c && negb (is_pon c) = true <-> spec_kind c = Some Kakan) /\
  (is_minkan c = true <-> spec_kind c = Some Minkan) /\
  (is_ankan c = true <-> spec_kind c = Some Ankan).
Proof.
  pose proof (chk_kind_at c) as H. unfold chk_kind in H. cbv zeta in H. unfold_and H.
  rewrite is_chi_lo, is_pon_lo, is_kakan_lo, is_minkan_lo, is_ankan_lo, spec_kind_lo.
  repeat split; apply eqb_iff; assumption.
Qed.

(** *** Normalisation *)
Definition types_of (e : list Z * option Z) : list Z * option Z :=
  (map tile_type (fst e), option_map tile_type (snd e)).
Definition chk_norm r : bool :=
  match clean r with
  | Ok v =>
    (0 <=? v) && (v <? 65536) &&
    reqb Z.eqb (clean v) (Ok v) && okind_eqb (spec_kind v) (spec_kind r) && (from_who v =? from_who r) &&
    match get_exposed v, get_exposed r with
    | Ok e, Ok e' => ex_eqb (types_of e) (types_of e')
    | _, _ => false
    end
  | Err _ => true
  end.
Lemma chk_norm_all : sweep 16 chk_norm = true.
Proof. vm_cast_no_check (eq_refl true). Qed.

Lemma lo_recompose h v : 0 <= v < 65536 -> lo (65536 * h + v) = v /\ hi (65536 * h + v) = h.
Proof.
  intros Hv. unfold lo, hi. split.
  - rewrite Z.add_comm, Z.mul_comm, Z.mod_add by lia. now apply Z.mod_small.
  - rewrite Z.add_comm, Z.mul_comm, Z.div_add by lia. rewrite Z.div_small; lia.
Qed.

