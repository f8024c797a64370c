(** Proofs about the win evaluators (C39-C41). *)
From Coq Require Import ZArith List Bool String Ascii Sorted Permutation Lia.
From Verif Require Import Base Constants Naki Decision Tokens GameInfo Agari Process VecLemmas
  SpecMeld SpecTokens SpecRound SpecDecision SpecTurn SpecAgari NakiProofs NakiLemmas NakiCore NakiLemmas2 TokensLemmas DecisionProofs DecisionLemmas
  RoundLemmas RoundInv RoundTiles RoundInit RoundQuery.
Import ListNotations.
Open Scope Z_scope.

(** ** Hand strings (C40) *)
Lemma digit_char_digit d : 1 <= d <= 9 -> digit_char d = digit d.
Proof.
  intros H. unfold digit_char, digit. unfold ascii_of_nat. f_equal. lia.
Qed.

Lemma sorted_app (a b : list Z) : StronglySorted Z.le a -> StronglySorted Z.le b -> (forall x y, In x a -> In y b -> x <= y) -> StronglySorted Z.le (a ++ b).
Proof.
  induction 1 as [|x a Sa IH Fx]; intros Sb H; [exact Sb|]. cbn. constructor.
  - apply IH; [exact Sb|]. intros u v Hu Hv. apply H; [now right|exact Hv].
  - apply Forall_app. split; [exact Fx|]. apply Forall_forall. intros y Hy. apply H; [now left|exact Hy].
Qed.
Lemma sorted_repeat x n : StronglySorted Z.le (repeat x n).
Proof. induction n; cbn; constructor; [assumption|]. apply Forall_forall. intros y Hy. apply repeat_spec in Hy. lia. Qed.
Lemma count_repeat x y n : count_occ Z.eq_dec (repeat x n) y = if Z.eq_dec x y then n else 0%nat.
Proof. induction n; cbn; [now destruct (Z.eq_dec x y)|]. destruct (Z.eq_dec x y); lia. Qed.

Lemma digits_block (f : nat -> Z) n k : let l := flat_map (fun j => repeat (Z.of_nat j + 1) (Z.to_nat (f j))) (seq k n) in
  StronglySorted Z.le l /\ Forall (fun d => Z.of_nat k + 1 <= d <= Z.of_nat (k + n)) l /\
  forall j, (k <= j < k + n)%nat -> count_occ Z.eq_dec l (Z.of_nat j + 1) = Z.to_nat (f j).
Proof.
  revert k. induction n as [|n IH]; intros k; cbn [seq flat_map].
  { cbv zeta. split; [constructor|]. split; [constructor|]. lia. }
  cbv zeta in *. destruct (IH (S k)) as (S1 & F1 & C1). split; [|split].
  - apply sorted_app; [apply sorted_repeat|exact S1|]. intros x y Hx Hy. apply repeat_spec in Hx. rewrite Forall_forall in F1. apply F1 in Hy. lia.
  - apply Forall_app. split.
    + apply Forall_forall. intros x Hx. apply repeat_spec in Hx. lia.
    + revert F1. apply Forall_impl. intros. lia.
  - intros j Hj. rewrite count_occ_app, count_repeat. destruct (Z.eq_dec (Z.of_nat k + 1) (Z.of_nat j + 1)) as [E|N].
    + assert (j = k) by lia. subst j. assert (Z0 : count_occ Z.eq_dec (flat_map (fun j => repeat (Z.of_nat j + 1) (Z.to_nat (f j))) (seq (S k) n)) (Z.of_nat k + 1) = 0%nat).
      { apply count_occ_not_In. intros H. rewrite Forall_forall in F1. apply F1 in H. lia. }
      lia.
    + rewrite (C1 j) by lia. lia.
Qed.

Lemma flat_map_map {A B C} (f : B -> list C) (g : A -> B) l : flat_map f (map g l) = flat_map (fun x => f (g x)) l.
Proof. induction l; cbn; congruence. Qed.

Lemma lists_tiles_ok h from n (g : Z -> list Z) : (n <= 9)%nat ->
  (forall j, (j < n)%nat -> g (Z.of_nat j) = repeat (Z.of_nat j + 1) (Z.to_nat (vget h (from + j)))) ->
  lists_tiles h from n (join_digits (flat_map g (zrange n))).
Proof.
  intros Hn Hg. unfold zrange. rewrite flat_map_map.
  assert (E : flat_map (fun x => g (Z.of_nat x)) (seq 0 n) = flat_map (fun j => repeat (Z.of_nat j + 1) (Z.to_nat (vget h (from + j)))) (seq 0 n)).
  { rewrite !flat_map_concat_map. f_equal. apply map_ext_in. intros j Hj. apply in_seq in Hj. apply Hg. lia. }
  rewrite E. destruct (digits_block (fun j => vget h (from + j)) n 0) as (S1 & F1 & C1). cbv zeta in S1, F1, C1.
  eexists. split; [|split; [exact S1|split; [|intros j Hj; apply C1; lia]]].
  - unfold writes, join_digits. f_equal. apply map_ext_in. intros d Hd. rewrite Forall_forall in F1. apply F1 in Hd. apply digit_char_digit. lia.
  - revert F1. apply Forall_impl. intros. lia.
Qed.

Lemma hand_strings h man pin sou honors : hand_tensor2strs h = (man, pin, sou, honors) ->
  lists_tiles h 0 9 man /\ lists_tiles h 9 9 pin /\ lists_tiles h 18 9 sou /\ lists_tiles h 27 7 honors.
Proof.
  unfold hand_tensor2strs. intros H. injection H as <- <- <- <-. unfold suit_digits, honor_digits.
  repeat split; apply lists_tiles_ok; try lia; intros j Hj; unfold times, hget; f_equal; try lia;
    f_equal; f_equal; lia.
Qed.

(** ** Melds (C41) *)
Fixpoint removez (x : Z) (l : list Z) : option (list Z) :=
  match l with
  | [] => None
  | y :: r => if x =? y then Some r else match removez x r with Some r' => Some (y :: r') | None => None end
  end.
Fixpoint permb (a b : list Z) : bool :=
  match a with
  | [] => match b with [] => true | _ => false end
  | x :: r => match removez x b with Some b' => permb r b' | None => false end
  end.
Lemma removez_perm x l r : removez x l = Some r -> Permutation l (x :: r).
Proof.
  revert r. induction l as [|y l IH]; intros r; [discriminate|]. cbn [removez]. destruct (Z.eqb_spec x y) as [->|N].
  - intros H. injection H as <-. reflexivity.
  - destruct (removez x l) as [r'|]; [|discriminate]. intros H. injection H as <-. rewrite (IH r' eq_refl). apply perm_swap.
Qed.
Lemma permb_ok a b : permb a b = true -> Permutation a b.
Proof.
  revert b. induction a as [|x a IH]; intros b; cbn [permb]; [destruct b; [reflexivity|discriminate]|].
  destruct (removez x b) as [b'|] eqn:E; [|discriminate]. intros H. apply removez_perm in E. rewrite E. constructor. now apply IH.
Qed.

Definition mtype_eqb (a b : meld_type) : bool :=
  match a, b with M_CHI, M_CHI | M_PON, M_PON | M_KAN, M_KAN | M_SHOUMINKAN, M_SHOUMINKAN => true | _, _ => false end.
Lemma mtype_eqb_eq a b : mtype_eqb a b = true -> a = b.
Proof. now destruct a, b. Qed.

Definition chk_meld r : bool :=
  if in_rangeb r then
  match get_exposed r, spec_kind r, lib_meld_of r with
  | Ok (ex, a), Some k, Ok m =>
    let tiles := all_tiles ex a in
    mtype_eqb (lm_type m) (type_for k) && Bool.eqb (lm_opened m) (negb (kind_eqb k Ankan)) &&
    nodupb (lm_tiles m) && forallb valid_idb (lm_tiles m) &&
    match k with
    | Kakan => let t := tile_type (hd 0 ex) in leqb (lm_tiles m) [4 * t; 4 * t + 1; 4 * t + 2; 4 * t + 3]
    | _ => permb (map tile_type (lm_tiles m)) (map tile_type tiles) && Bool.eqb (has_red_five (lm_tiles m)) (has_red_five tiles)
    end
  | _, _, _ => false
  end else true.
Lemma chk_meld_core : core_sweep chk_meld = true.
Proof. vm_cast_no_check (eq_refl true). Qed.
Lemma lib_meld_core r : lib_meld_of (core r) = lib_meld_of r.
Proof.
  pose proof (spec_kind_core r) as S.
  destruct (kinds_by_spec r) as (A1 & A2 & A3 & A4 & A5).
  destruct (kinds_by_spec (core r)) as (B1 & B2 & B3 & B4 & B5).
  rewrite S in B1, B2, B3, B4, B5.
  unfold lib_meld_of.
  rewrite A1, A2, A3, A4, B1, B2, B3, B4.
  rewrite A2 in A5. rewrite B2 in B5.
  unfold core. unfold core in B1, B5. clear A2 A3 A4 B2 B3 B4 S.
  destruct (spec_kind r) as [k|]; [destruct k|]; cbn [okind_eqb kind_eqb negb andb] in *; rewrite ?andb_true_r in *.
  - assert (P : pattern_chi (Z.lor 4 (Z.land r 0xFDF8)) = pattern_chi r)
      by (unfold pattern_chi; now rewrite !land_kept by reflexivity).
    now rewrite P.
  - assert (P : pattern_pon (Z.lor 8 (Z.land r 0xFE70)) = pattern_pon r)
      by (unfold pattern_pon; now rewrite !land_kept by reflexivity).
    now rewrite P.
  - assert (P : pattern_kakan (Z.lor 16 (Z.land r 0xFE60)) = pattern_kakan r)
      by (unfold pattern_kakan; now rewrite !land_kept by reflexivity).
    now rewrite P, A5, B5.
  - assert (P : pattern_minkan (Z.lor 1 (Z.land r 0xFF00)) = pattern_minkan r)
      by (unfold pattern_minkan; now rewrite !land_kept by reflexivity).
    now rewrite P, A5, B5.
  - assert (P : pattern_ankan (Z.lor 0 (Z.land r 0xFF00)) = pattern_ankan r)
      by (unfold pattern_ankan; now rewrite !land_kept by reflexivity).
    now rewrite P, A5, B5.
  - rewrite A5. auto.
Qed.
Lemma chk_meld_at r : chk_meld r = true.
Proof.
  rewrite <- (core_sweep_ok _ chk_meld_core r). unfold chk_meld.
  destruct (core_tiles r) as (T1 & _). now rewrite in_rangeb_core, spec_kind_core, T1, lib_meld_core.
Qed.
Lemma lib_meld_lo c : lib_meld_of c = lib_meld_of (lo c).
Proof.
  unfold lib_meld_of. now rewrite (is_chi_lo c), (is_pon_lo c), (is_kakan_lo c), (is_minkan_lo c), (is_ankan_lo c),
    (pattern_chi_lo c), (pattern_pon_lo c), (pattern_kakan_lo c), (pattern_minkan_lo c), (pattern_ankan_lo c).
Qed.

Lemma meld_for_scorer c ex a k : in_range c -> spec_kind c = Some k -> get_exposed c = Ok (ex, a) ->
  exists m, lib_meld_of c = Ok m /\ lm_type m = type_for k /\ (lm_opened m = false <-> k = Ankan) /\
    NoDup (lm_tiles m) /\ Forall valid_id (lm_tiles m) /\
    match k with
    | Kakan => exists t, ex = [t] /\ lm_tiles m = [4 * (t / 4); 4 * (t / 4) + 1; 4 * (t / 4) + 2; 4 * (t / 4) + 3]
    | _ => Permutation (map tile_type (lm_tiles m)) (map tile_type (all_tiles ex a)) /\
           has_red_five (lm_tiles m) = has_red_five (all_tiles ex a)
    end.
Proof.
  intros Hr Hk He. pose proof (meld_possible c ex a Hr He) as (k' & Hk' & Pm). rewrite Hk in Hk'. injection Hk' as <-.
  apply in_rangeb_ok in Hr.
  pose proof (chk_meld_at (lo c)) as H. unfold chk_meld in H. rewrite Hr in H.
  rewrite get_exposed_lo in He. rewrite He in H. rewrite spec_kind_lo in Hk. rewrite Hk, <- lib_meld_lo in H.
  destruct (lib_meld_of c) as [m|]; [|discriminate]. exists m. split; [reflexivity|]. cbv zeta in H.
  apply andb_prop in H as [H H5]. apply andb_prop in H as [H H4]. apply andb_prop in H as [H H3]. apply andb_prop in H as [H1 H2].
  split; [now apply mtype_eqb_eq|]. apply eqb_prop in H2. split; [rewrite H2; destruct k; cbn; split; congruence|].
  split; [now apply nodupb_ok|]. split; [now apply forall_valid|].
  destruct k; try (apply andb_prop in H5 as [H5 H6]; split; [now apply permb_ok|now apply eqb_prop]).
  destruct Pm as (_ & _ & -> & Le & _). cbn [all_tiles] in Le. destruct ex as [|t [|]]; try discriminate. exists t. split; [reflexivity|].
  apply leqb_eq in H5. cbn [hd] in H5. now rewrite tile_type_div in H5.
Qed.

(** ** Noninterference (C39) *)
Lemma mapM_nth_ok {A B} (f : A -> res B) l r k da db : mapM f l = Ok r -> (k < List.length l)%nat -> f (nth k l da) = Ok (nth k r db).
Proof. intros H Hk. apply mapM_ok in H. now apply (Forall2_nth _ _ _ k da db H). Qed.

Lemma evaluate_ron_slot lib a pl htf nl su t ck ha rn htf' rons k : (k < 4)%nat ->
  evaluate_ron lib a pl htf nl su t ck ha rn = Ok (htf', rons) ->
  exists h', (if Z.of_nat k =? pl then Ok (row htf k, None)
   else ron_for lib a t ck ha rn (hd 0%nat (tix t)) k (row htf k) (row nl k) (row su k)) = Ok (h', nth k rons None).
Proof.
  intros Hk H. unfold evaluate_ron in H. apply bind_ok in H as (idx & Ei & H). apply tile2idx_ok in Ei. subst idx.
  cbv zeta in H. apply bind_ok in H as (rs & Er & H). injection H as <- <-.
  pose proof (mapM_nth_ok _ _ _ k 0%nat ([], None) Er) as E. rewrite seq_length in E. specialize (E Hk). rewrite seq_nth in E by exact Hk.
  cbn [Nat.add] in E. exists (fst (nth k rs ([], None))).
  assert (En : nth k (map snd rs) None = snd (nth k rs ([], None))) by (rewrite <- (map_nth snd rs); reflexivity).
  rewrite En, <- surjective_pairing. exact E.
Qed.

Lemma ron_depends_only_on_own_seat lib a a' pl htf htf2 nl nl2 su su2 t ck ha rn r1 r2 h1 h2 k : (k < 4)%nat ->
  evaluate_ron lib a pl htf nl su t ck ha rn = Ok (h1, r1) ->
  evaluate_ron lib a' pl htf2 nl2 su2 t ck ha rn = Ok (h2, r2) ->
  row htf k = row htf2 k -> row nl k = row nl2 k -> row su k = row su2 k ->
  vget (g_reaches a) k = vget (g_reaches a') k -> vget (g_ippatsu a) k = vget (g_ippatsu a') k -> vget (g_dreaches a) k = vget (g_dreaches a') k ->
  g_doras a = g_doras a' -> g_player_wind a = g_player_wind a' -> g_round_wind a = g_round_wind a' -> g_kyotaku a = g_kyotaku a' -> g_honba a = g_honba a' ->
  nth k r1 None = nth k r2 None.
Proof.
  intros Hk E1 E2 R1 R2 R3 F1 F2 F3 F4 F5 F6 F7 F8.
  apply (evaluate_ron_slot _ _ _ _ _ _ _ _ _ _ _ _ _ Hk) in E1 as (x1 & E1).
  apply (evaluate_ron_slot _ _ _ _ _ _ _ _ _ _ _ _ _ Hk) in E2 as (x2 & E2).
  unfold ron_for in E1, E2. rewrite R1, R2, R3, F1, F2, F3, F4, F5, F6, F7, F8 in E1. rewrite E1 in E2. congruence.
Qed.

Lemma tsumo_depends_only_on_own_seat lib a a' htf htf2 nl nl2 t ha ri te ch k :
  row htf k = row htf2 k -> row nl k = row nl2 k ->
  vget (g_reaches a) k = vget (g_reaches a') k -> vget (g_ippatsu a) k = vget (g_ippatsu a') k -> vget (g_dreaches a) k = vget (g_dreaches a') k ->
  g_doras a = g_doras a' -> g_player_wind a = g_player_wind a' -> g_round_wind a = g_round_wind a' -> g_kyotaku a = g_kyotaku a' -> g_honba a = g_honba a' ->
  evaluate_tsumo lib a k htf nl t ha ri te ch = evaluate_tsumo lib a' k htf2 nl2 t ha ri te ch.
Proof. intros R1 R2 F1 F2 F3 F4 F5 F6 F7 F8. unfold evaluate_tsumo. now rewrite R1, R2, F1, F2, F3, F4, F5, F6, F7, F8. Qed.
