(** Two rounds that differ in the copies of tiles only are processed alike (C114). *)
From Coq Require Import ZArith List Bool String Ascii Lia PeanoNat Permutation.
From Verif Require Import Base Constants Naki Decision Tokens GameInfo Agari Process VecLemmas
  SpecMeld SpecTokens SpecRound SpecTurn SpecTensor Tensor RoundLemmas RoundInv RoundTiles RoundInit RoundBook RoundFlags RoundSplit RoundHalf RoundFacts
  RoundQuery AgariLemmas TensorLemmas TensorRound HiddenLemmas NakiLemmas NakiLemmas2 RoundMelds SpecCopies.
Import ListNotations.
Open Scope Z_scope.

Lemma tid_valid x : valid_id x -> tid x = x.
Proof. intros [A B]. unfold tid. apply Z.mod_small. lia. Qed.

Lemma tile2idx_valid x : valid_id x -> tile2idx x = Ok (tix x).
Proof.
  intros [A B]. unfold tile2idx. destruct (py_index 136 x) as [k|] eqn:E; [|exfalso; revert E; unfold py_index; destruct (x <? 0) eqn:?; destruct (_ && _) eqn:?; try discriminate; lia].
  cbn [bind]. apply py_index_tid in E. subst k. reflexivity.
Qed.
Lemma mapM_ext_in {A B} (f g : A -> res B) l : (forall x, In x l -> f x = g x) -> mapM f l = mapM g l.
Proof. induction l as [|x l IH]; intros H; [reflexivity|]. cbn [mapM]. rewrite H by now left. rewrite IH by (intros; apply H; now right). reflexivity. Qed.

Section Copies.
  Variable f : Z -> Z.
  Hypothesis F : renaming f.

  (** ** Tiles *)
  Lemma copy_red x : valid_id x -> red_fiveb (f x) = red_fiveb x.
  Proof.
    intros V. destruct (red_fiveb x) eqn:E.
    - rewrite (rn_red f F x); [exact E|]. unfold red_fiveb in E. unfold red_five. lia.
    - destruct (red_fiveb (f x)) eqn:E'; [|reflexivity].
      assert (R : red_five (f x)) by (unfold red_fiveb in E'; unfold red_five; lia).
      pose proof (rn_red f F _ R) as Q. apply (rn_inj f F) in Q; [|exact (rn_valid f F x V)|exact V]. rewrite Q, E in E'. discriminate E'.
  Qed.
  Lemma copy_tix x : valid_id x -> tix (f x) = tix x.
  Proof.
    intros V. pose proof (rn_valid f F x V) as V'. pose proof (rn_type f F x V) as T. pose proof (copy_red x V) as R.
    unfold tix. rewrite !tid_valid by assumption. revert T R V'. generalize (f x). intros y T R [Y1 Y2]. destruct V as [X1 X2].
    assert (Q : forall z, 0 <= z < 136 -> nth (Z.to_nat z) TILE2IDX_list [] = Z.to_nat (z / 4) :: (if z =? 16 then [34%nat] else if z =? 52 then [35%nat] else if z =? 88 then [36%nat] else [])).
    { intros z Hz. assert (I : In z (map Z.of_nat (seq 0 136))) by (apply in_map_iff; exists (Z.to_nat z); split; [lia|apply in_seq; lia]).
      assert (S : forallb (fun z => if list_eq_dec Nat.eq_dec (nth (Z.to_nat z) TILE2IDX_list []) (Z.to_nat (z / 4) :: (if z =? 16 then [34%nat] else if z =? 52 then [35%nat] else if z =? 88 then [36%nat] else [])) then true else false) (map Z.of_nat (seq 0 136)) = true) by (vm_compute; reflexivity).
      rewrite forallb_forall in S. specialize (S z I). cbv beta in S. destruct (list_eq_dec _ _ _) as [E|]; [exact E|discriminate S]. }
    rewrite (Q y) by lia. rewrite (Q x) by lia. rewrite T. f_equal. unfold red_fiveb in R.
    destruct (Z.eqb_spec x 16) as [->|N1]; [replace (y =? 16) with true; [reflexivity|]|].
    { symmetry. apply Z.eqb_eq. change (16 / 4) with 4 in T. cbn in R. assert (16 <= y < 20) by (Z.to_euclidean_division_equations; lia). lia. }
    destruct (Z.eqb_spec x 52) as [->|N2].
    { change (52 / 4) with 13 in T. cbn in R. assert (52 <= y < 56) by (Z.to_euclidean_division_equations; lia). assert (y = 52) as -> by lia. reflexivity. }
    destruct (Z.eqb_spec x 88) as [->|N3].
    { change (88 / 4) with 22 in T. cbn in R. assert (88 <= y < 92) by (Z.to_euclidean_division_equations; lia). assert (y = 88) as -> by lia. reflexivity. }
    cbn [orb] in R. destruct (y =? 16), (y =? 52), (y =? 88); try discriminate R. reflexivity.
  Qed.
  Lemma copy_num k l : Forall valid_id l -> num k (map f l) = num k l.
  Proof.
    intros V. unfold num. f_equal. induction V as [|x l V _ IH]; [reflexivity|]. cbn [map filter].
    assert (E : in_class k (f x) = in_class k x).
    { unfold in_class. rewrite (rn_type f F x V). destruct (Nat.ltb k 34); [reflexivity|].
      assert (G : forall r, red_five r -> (f x =? r) = (x =? r)).
      { intros r Hr. destruct (Z.eqb_spec x r) as [->|N]; [rewrite (rn_red f F r Hr); apply Z.eqb_refl|]. apply Z.eqb_neq. intros E. apply N.
        apply (rn_inj f F); [exact V| |rewrite E; symmetry; exact (rn_red f F r Hr)]. destruct Hr as [->|[->| ->]]; unfold valid_id; lia. }
      rewrite !G by (unfold red_five; lia). reflexivity. }
    rewrite E. destruct (in_class k x); cbn [List.length]; rewrite IH; reflexivity.
  Qed.

  (** ** Variables *)
  Definition fixed_pon (nk : naki) : Prop :=
    is_pon (nk_code nk) = true -> let k := 9 * p_color (pattern_pon (nk_code nk)) + p_number (pattern_pon (nk_code nk)) in valid_id k /\ f k = k.
  Definition renamed_hand (h h' : list Z) : Prop := forall x, valid_id x -> vget h' (Z.to_nat (f x)) = vget h (Z.to_nat x).

  Record copied (s t : rstate) : Prop := {
    cp_hands : forall p, (p < 4)%nat -> renamed_hand (row (s_hands s) p) (row (s_hands t) p);
    cp_ht : s_ht s = s_ht t;
    cp_htf : s_htf s = s_htf t;
    cp_pov : s_pov s = s_pov t;
    cp_sute : s_sute s = s_sute t;
    cp_rtsumo : s_rtsumo s = s_rtsumo t;
    cp_doras : s_doras t = map f (s_doras s) /\ Forall valid_id (s_doras s);
    cp_scores : s_scores s = s_scores t;
    cp_kyotaku : s_kyotaku s = s_kyotaku t;
    cp_reaches : s_reaches s = s_reaches t;
    cp_dreaches : s_dreaches s = s_dreaches t;
    cp_ippatsu : s_ippatsu s = s_ippatsu t;
    cp_menzen : s_menzen s = s_menzen t;
    cp_melds : s_melds s = s_melds t /\ Forall (Forall fixed_pon) (s_melds s);
    cp_cycles : s_cycles s = s_cycles t;
    cp_acquired : s_acquired t = option_map f (s_acquired s) /\ (forall x, s_acquired s = Some x -> valid_id x) }.

  Lemma copied_strip s t s' t' : strip s = strip s' -> strip t = strip t' -> copied s t -> copied s' t'.
  Proof.
    intros E G [A1 A2 A3 A4 A5 A6 A7 A8 A9 A10 A11 A12 A13 A14 A15 A16].
    apply strip_fields in E as (E1 & E2 & E3 & _ & E5 & E6 & E7 & E8 & E9 & E10 & E11 & E12 & E13 & E14 & E15 & E16 & E17).
    apply strip_fields in G as (G1 & G2 & G3 & _ & G5 & G6 & G7 & G8 & G9 & G10 & G11 & G12 & G13 & G14 & G15 & G16 & G17).
    constructor; try congruence.
    - intros p Hp. rewrite <- E1, <- G1. now apply A1.
    - rewrite <- E17, <- G17. exact A16.
  Qed.

  (** The tiles of a call in range are real; a pon is of the type of its tiles. *)
  Lemma call_tiles c : in_range c -> Forall valid_id (shown_by c ++ claimed_by c).
  Proof.
    intros R. unfold shown_by, claimed_by. destruct (get_exposed c) as [[ex a]|] eqn:E; [|constructor].
    destruct (meld_possible c ex a R E) as (k & _ & _ & V & _). apply Forall_app. destruct a as [a|]; cbn [all_tiles] in V; [inversion V; subst|]; auto.
  Qed.
  Lemma call_pon c : in_range c -> (spec_kind c = Some Pon -> Forall (fun x => f (x / 4) = x / 4) (shown_by c)) -> forall nk, nk_code nk = c -> fixed_pon nk.
  Proof.
    intros R P nk <- Q. destruct (pon_tiles _ Q) as (_ & ex & a & _ & T & N & E). specialize (P (proj1 (proj1 (proj2 (kind_predicates _))) Q)).
    pose proof (call_tiles _ R) as V. apply Forall_app in V as [V _]. rewrite E in P, V. destruct ex as [|x ex]; [congruence|].
    inversion T as [|? ? T1 _]; subst. inversion P as [|? ? P1 _]; subst. inversion V as [|? ? V1 _]; subst. rewrite tile_type_div in T1. rewrite <- T1.
    split; [|exact P1]. destruct V1. split; [apply Z.div_pos; lia|]. assert (x / 4 < 34) by (apply Z.div_lt_upper_bound; lia). lia.
  Qed.

  Lemma kakan_shows c : in_range c -> is_kakan c = true -> (exists e, get_exposed c = Ok e) -> shown_by c <> [].
  Proof.
    intros R K [[ex a] E]. unfold shown_by. rewrite E. destruct (meld_possible c ex a R E) as (k & _ & _ & _ & N). intros ->.
    destruct k, a; cbn [all_tiles List.length app] in N; destruct N as (N1 & N2 & _); congruence.
  Qed.
  (** ** Bookkeeping *)
  Lemma tnat_valid x : valid_id x -> tnat x = Z.to_nat x.
  Proof. intros V. unfold tnat. now rewrite tid_valid. Qed.
  Lemma same_copy x y : valid_id x -> valid_id y -> Nat.eqb (Z.to_nat (f x)) (Z.to_nat (f y)) = Nat.eqb (Z.to_nat x) (Z.to_nat y).
  Proof.
    intros X Y. destruct (rn_valid f F x X) as [A _]. destruct (rn_valid f F y Y) as [B _]. destruct X as [X1 X2] eqn:EX, Y as [Y1 Y2] eqn:EY.
    destruct (Nat.eqb_spec (Z.to_nat x) (Z.to_nat y)) as [E|N]; [replace y with x by lia; apply Nat.eqb_refl|].
    apply Nat.eqb_neq. intros E. apply N. f_equal. apply (rn_inj f F); [exact X|exact Y|lia].
  Qed.
  Lemma hand_set h h' x v : List.length h = 136%nat -> List.length h' = 136%nat -> valid_id x -> renamed_hand h h' -> renamed_hand (vset h (tnat x) v) (vset h' (tnat (f x)) v).
  Proof.
    intros L L' V H y Y. pose proof (rn_valid f F x V) as V'. pose proof (rn_valid f F y Y) as Y'. rewrite !tnat_valid by assumption.
    rewrite !vget_vset by (unfold valid_id in *; lia). rewrite same_copy by assumption. now rewrite (H y Y).
  Qed.
  Lemma hand_adds h h' l v : List.length h = 136%nat -> List.length h' = 136%nat -> Forall valid_id l -> Forall (fun x => f x = x) l -> renamed_hand h h' ->
    renamed_hand (vadds h (map tnat l) v) (vadds h' (map tnat l) v).
  Proof.
    intros L L' V Fx H y Y. pose proof (rn_valid f F y Y) as Y'. rewrite !vget_vadds by (unfold valid_id in *; lia). rewrite (H y Y). f_equal. f_equal. f_equal. clear L L' H.
    induction V as [|x l V _ IH]; [reflexivity|]. inversion Fx as [|? ? Q Fx']; subst. cbn [map count_occ]. rewrite tnat_valid by assumption.
    pose proof (same_copy x y V Y) as S. rewrite Q in S. specialize (IH Fx').
    destruct (Nat.eq_dec (Z.to_nat x) (Z.to_nat (f y))) as [E|N], (Nat.eq_dec (Z.to_nat x) (Z.to_nat y)) as [E'|N']; try (now rewrite IH); try exact IH.
    - rewrite E, Nat.eqb_refl in S. symmetry in S. apply Nat.eqb_eq in S. congruence.
    - rewrite E', Nat.eqb_refl in S. apply Nat.eqb_eq in S. congruence.
  Qed.
  Lemma tix_fixed l : Forall valid_id l -> map tix (map f l) = map tix l.
  Proof. intros V. induction V as [|x l V _ IH]; [reflexivity|]. cbn [map]. now rewrite copy_tix, IH. Qed.

  Lemma drop_pon_incl k l z : In z (drop_pon k l) -> In z l.
  Proof. induction l as [|m l IH]; cbn [drop_pon]; [auto|]. destruct (_ && _); [now right|]. intros [->|H]; [now left|right; auto]. Qed.
  Lemma copied_apply s t a b : wf s -> wf t -> seated a -> renamed f a b -> copied s t -> copied (apply a s) (apply b t).
  Proof.
    intros Ws Wt Sa Re [A1 A2 A3 A4 A5 A6 A7 A8 A9 A10 A11 A12 A13 A14 A15 A16].
    destruct Ws as (W1 & W1' & W2 & _ & W3 & _ & _ & W4 & _). destruct Wt as (V1 & V1' & V2 & _ & V3 & _ & _ & V4 & _).
    Ltac same_as A2 A3 A4 A5 A6 A8 A9 A10 A11 A12 A13 A15 := rewrite ?A2, ?A3, ?A4, ?A5, ?A6, ?A8, ?A9, ?A10, ?A11, ?A12, ?A13, ?A15; reflexivity.
    destruct a as [w x|w x|w c|w|w|x]; cbn [renamed] in Re.
    - destruct Re as [V ->].
      constructor; rewrite ?ap_hands, ?ap_ht, ?ap_htf, ?ap_pov, ?ap_sute, ?ap_rtsumo, ?ap_doras, ?ap_scores, ?ap_kyotaku, ?ap_reaches, ?ap_dreaches, ?ap_ippatsu, ?ap_menzen, ?ap_melds, ?ap_cycles, ?ap_acquired; cbv zeta;
        rewrite ?(copy_tix x V); try assumption; try same_as A2 A3 A4 A5 A6 A8 A9 A10 A11 A12 A13 A15.
      + intros p Hp. rewrite !row_at by lia. destruct (Nat.eqb p (Z.to_nat w)); [|now apply A1].
        apply hand_set; [exact (row_len 4 _ _ _ W1 W1' Hp)|exact (row_len 4 _ _ _ V1 V1' Hp)|exact V|now apply A1].
      + split; [reflexivity|]. intros y Hy. congruence.
    - destruct Re as [V ->].
      constructor; rewrite ?ap_hands, ?ap_ht, ?ap_htf, ?ap_pov, ?ap_sute, ?ap_rtsumo, ?ap_doras, ?ap_scores, ?ap_kyotaku, ?ap_reaches, ?ap_dreaches, ?ap_ippatsu, ?ap_menzen, ?ap_melds, ?ap_cycles, ?ap_acquired; cbv zeta;
        rewrite ?(copy_tix x V); try assumption; try same_as A2 A3 A4 A5 A6 A8 A9 A10 A11 A12 A13 A15.
      + intros p Hp. rewrite !row_at by lia. destruct (Nat.eqb p (Z.to_nat w)); [|now apply A1].
        apply hand_set; [exact (row_len 4 _ _ _ W1 W1' Hp)|exact (row_len 4 _ _ _ V1 V1' Hp)|exact V|now apply A1].
      + split; [reflexivity|]. intros y Hy. discriminate Hy.
    - destruct Re as (R & -> & Fx & P). pose proof (call_tiles c R) as V. pose proof (call_pon c R P) as Q.
      constructor; rewrite ?ap_hands, ?ap_ht, ?ap_htf, ?ap_pov, ?ap_sute, ?ap_rtsumo, ?ap_doras, ?ap_scores, ?ap_kyotaku, ?ap_reaches, ?ap_dreaches, ?ap_ippatsu, ?ap_menzen, ?ap_melds, ?ap_cycles, ?ap_acquired; cbv zeta;
        try assumption; try same_as A2 A3 A4 A5 A6 A8 A9 A10 A11 A12 A13 A15.
      + intros p Hp. rewrite !row_at by lia. destruct (Nat.eqb p (Z.to_nat w)); [|now apply A1]. apply Forall_app in V as [V _]. apply Forall_app in Fx as [Fx _].
        apply hand_adds; [exact (row_len 4 _ _ _ W1 W1' Hp)|exact (row_len 4 _ _ _ V1 V1' Hp)|exact V|exact Fx|now apply A1].
      + destruct A14 as [A14 B14]. rewrite <- A14. split; [reflexivity|].
        assert (N : fixed_pon (match mk_naki c with Ok nk => nk | Err _ => raw_naki c end)).
        { destruct (mk_naki c) as [nk|] eqn:E; apply Q; [exact (mk_naki_code _ _ E)|reflexivity]. }
        assert (G : Forall (Forall fixed_pon) (upd (s_melds s) (Z.to_nat w) (fun l => l ++ [match mk_naki c with Ok nk => nk | Err _ => raw_naki c end]))).
        { apply Forall_upd; [exact B14|]. intros l Hl. apply Forall_app. split; [exact Hl|]. constructor; [exact N|constructor]. }
        destruct (is_kakan c); [|exact G]. apply Forall_upd; [exact G|]. intros l Hl. apply Forall_forall. intros z Hz. rewrite Forall_forall in Hl.
        apply Hl. exact (drop_pon_incl _ _ _ Hz).
      + destruct (_ || _); [split; [reflexivity|discriminate]|]. apply Forall_app in V as [_ V]. apply Forall_app in Fx as [_ Fx].
        destruct (claimed_by c) as [|y l]; [split; [reflexivity|discriminate]|]. inversion V; inversion Fx; subst. cbn [hd_error option_map]. split; [congruence|]. intros z Hz. congruence.
    - subst b.
      constructor; rewrite ?ap_hands, ?ap_ht, ?ap_htf, ?ap_pov, ?ap_sute, ?ap_rtsumo, ?ap_doras, ?ap_scores, ?ap_kyotaku, ?ap_reaches, ?ap_dreaches, ?ap_ippatsu, ?ap_menzen, ?ap_melds, ?ap_cycles, ?ap_acquired; cbv zeta; try assumption; same_as A2 A3 A4 A5 A6 A8 A9 A10 A11 A12 A13 A15.
    - subst b.
      constructor; rewrite ?ap_hands, ?ap_ht, ?ap_htf, ?ap_pov, ?ap_sute, ?ap_rtsumo, ?ap_doras, ?ap_scores, ?ap_kyotaku, ?ap_reaches, ?ap_dreaches, ?ap_ippatsu, ?ap_menzen, ?ap_melds, ?ap_cycles, ?ap_acquired; cbv zeta; try assumption; same_as A2 A3 A4 A5 A6 A8 A9 A10 A11 A12 A13 A15.
    - destruct Re as [V ->].
      constructor; rewrite ?ap_hands, ?ap_ht, ?ap_htf, ?ap_pov, ?ap_sute, ?ap_rtsumo, ?ap_doras, ?ap_scores, ?ap_kyotaku, ?ap_reaches, ?ap_dreaches, ?ap_ippatsu, ?ap_menzen, ?ap_melds, ?ap_cycles, ?ap_acquired; cbv zeta;
        rewrite ?(copy_tix x V); try assumption; try same_as A2 A3 A4 A5 A6 A8 A9 A10 A11 A12 A13 A15.
      destruct A7 as [-> A7]. split; [now rewrite map_app|]. apply Forall_app. split; [exact A7|]. constructor; [exact V|constructor].
  Qed.

  (** ** Half-turns *)
  Definition ren_so (o : sobj) : sobj :=
    MkSobj (so_remaining_turns o) (so_sutehai o) (so_double_reaches o) (so_reaches o) (so_ippatsu o) (so_scores o) (so_kyotaku o) (so_honba o) (map f (so_dora o))
      (so_parent_tensor o) (so_rounds_remaining o) (so_parent_rounds_remaining o) (so_remaining_tsumo o) (so_player o).
  Definition ren_half (h : halfturn sobj) : halfturn sobj :=
    match h with
    | DuringTurn q so ds e => DuringTurn q (ren_so so) ds e
    | DiscardTurn q so x e => DiscardTurn q (ren_so so) (f x) e
    | PostTurn q so ds e => PostTurn q (ren_so so) ds e
    end.
  Definition tile_ok (h : halfturn sobj) : Prop := match h with DiscardTurn _ _ x _ => valid_id x | _ => True end.
  Record twin (s t : rstate) : Prop := {
    tw_vars : copied s t;
    tw_half : s_half t = map ren_half (s_half s);
    tw_tiles : Forall tile_ok (s_half s);
    tw_tokens : s_tokens s = s_tokens t;
    tw_sobj : s_sobj t = option_map ren_so (s_sobj s) }.

  Lemma capture_twin n q s t : copied s t -> capture n q t = ren_so (capture n q s).
  Proof. intros []. destruct cp_doras0. unfold capture, ren_so. cbn. congruence. Qed.
  Lemma copied_ippatsu s t ip : copied s t -> copied (set_ippatsu ip s) (set_ippatsu ip t).
  Proof. intros []. destruct s, t. constructor; cbn in *; auto. Qed.
  Lemma upd_during_ren g l : upd_during g (map ren_half l) = map ren_half (upd_during g l).
  Proof. destruct l as [|[] l]; reflexivity. Qed.
  Lemma upd_post_ren g l : upd_post g (map ren_half l) = map ren_half (upd_post g l).
  Proof. destruct l as [|[] l]; reflexivity. Qed.
  Lemma upd_during_tiles g l : Forall tile_ok l -> Forall tile_ok (upd_during g l).
  Proof. intros H. destruct H as [|h l Q H]; [constructor|]. destruct h; cbn [upd_during]; constructor; auto; exact Q. Qed.
  Lemma upd_post_tiles g l : Forall tile_ok l -> Forall tile_ok (upd_post g l).
  Proof. intros H. destruct H as [|h l Q H]; [constructor|]. destruct h; cbn [upd_post]; constructor; auto; exact Q. Qed.

  Variable L : libs.
  Hypothesis B : blind_to_copies f (l_agari L).

  Lemma tsumo_copy n s t p x b1 b2 b3 b4 : copied s t -> valid_id x ->
    evaluate_tsumo (l_agari L) (args_of n t) p (s_htf t) (s_melds t) (f x) b1 b2 b3 b4 = evaluate_tsumo (l_agari L) (args_of n s) p (s_htf s) (s_melds s) x b1 b2 b3 b4.
  Proof.
    intros [A1 A2 A3 A4 A5 A6 [A7 D] A8 A9 A10 A11 A12 A13 [A14 _] A15 A16] V. unfold evaluate_tsumo, args_of. cbn [g_doras g_reaches g_ippatsu g_dreaches g_player_wind g_round_wind g_kyotaku g_honba].
    rewrite <- A3, <- A9, <- A10, <- A11, <- A12, <- A14, A7. destruct (hand_tensor2strs _) as [[[m1 m2] m3] m4]. destruct (mapM _ _) as [ms|]; [|reflexivity]. cbn [bind].
    rewrite B by assumption. reflexivity.
  Qed.
  Lemma ron_copy n s t w x su b1 b2 b3 htf melds : copied s t -> valid_id x ->
    evaluate_ron (l_agari L) (args_of n t) w htf melds su (f x) b1 b2 b3 = evaluate_ron (l_agari L) (args_of n s) w htf melds su x b1 b2 b3.
  Proof.
    intros [A1 A2 A3 A4 A5 A6 [A7 D] A8 A9 A10 A11 A12 A13 [A14 _] A15 A16] V. unfold evaluate_ron. 
    assert (T : tile2idx (f x) = tile2idx x).
    { rewrite !tile2idx_valid by (assumption || exact (rn_valid f F x V)). now rewrite copy_tix. }
    rewrite T. destruct (tile2idx x) as [ix|]; [|reflexivity]. cbn [bind]. f_equal. apply mapM_ext_in. intros p _.
    destruct (Z.of_nat p =? w); [reflexivity|]. unfold ron_for. destruct (truthy _); [reflexivity|]. destruct (hand_tensor2strs _) as [[[m1 m2] m3] m4].
    destruct (mapM _ _) as [ms|]; [|reflexivity]. cbn [bind]. unfold args_of. cbn [g_doras g_reaches g_ippatsu g_dreaches g_player_wind g_round_wind g_kyotaku g_honba].
    rewrite <- A9, <- A10, <- A11, <- A12, A7. rewrite B by assumption. reflexivity.
  Qed.
  Lemma kakan_copy p h h' l : renamed_hand h h' -> Forall fixed_pon l -> kakan_candidates p h' l = kakan_candidates p h l.
  Proof.
    intros H Fx. unfold kakan_candidates. f_equal. apply mapM_ext_in. intros m Hm. rewrite Forall_forall in Fx. specialize (Fx m Hm). unfold fixed_pon in Fx.
    destruct (is_pon (nk_code m)); [|reflexivity]. cbv zeta in *. destruct (Fx eq_refl) as [V E]. set (k := 9 * _ + _) in *.
    destruct (py_index 136 k) as [i|] eqn:Ei; [|reflexivity]. cbn [bind]. apply py_index_tid in Ei. subst i. rewrite (tnat_valid k V).
    specialize (H k V). rewrite E in H. now rewrite H.
  Qed.

  Lemma twin_step n s t a b s' t' : wf s -> wf t -> seated a -> seated b -> renamed f a b -> twin s t ->
    astep L n s a = Ok s' -> astep L n t b = Ok t' -> twin s' t'.
  Proof.
    intros Ws Wt Sa Sb Re [A H Ti T O] E1 E2.
    pose proof (copied_apply s t a b Ws Wt Sa Re A) as Aa.
    pose proof (astep_apply _ _ _ _ _ Ws Sa E1) as [_ Q1]. pose proof (astep_apply _ _ _ _ _ Wt Sb E2) as [_ Q2].
    assert (A' : copied s' t') by (eapply copied_strip; [symmetry; exact Q1|symmetry; exact Q2|exact Aa]).
    destruct (ap_frame a s) as (F1 & F2 & _ & F4). destruct (ap_frame b t) as (G1 & G2 & _ & G4).
    pose proof (ntokens_like _ _ T) as Nt. clear Q1 Q2.
    destruct a as [w x|w x|w c|w|w|x]; cbn [astep seated renamed] in *.
    - destruct Re as [V ->]. cbn [astep seated] in *. assert (Ew : w = Z.of_nat (Z.to_nat w)) by lia.
      apply draw_inv in E1 as (_ & ag & re & ank & kak & D1 & D2 & D3 & D4 & ->); [|lia|exact Ws].
      apply draw_inv in E2 as (_ & ag' & re' & ank' & kak' & D1' & D2' & D3' & D4' & ->); [|lia|exact Wt].
      rewrite <- Ew in *.
      assert (Ad : copied (at_draw (Z.to_nat w) x s) (at_draw (Z.to_nat w) (f x) t)).
      { unfold at_draw. rewrite <- Ew, (cp_ippatsu _ _ A). now apply copied_ippatsu. }
      pose proof (capture_twin n (Z.to_nat w) _ _ Ad) as C.
      assert (D1x : Ok ag' = Ok ag).
      { rewrite <- D1, <- D1'. rewrite (tsumo_copy _ _ _ _ _ _ _ _ _ Ad V). now rewrite (cp_rtsumo _ _ Ad), (cp_cycles _ _ Ad), (cp_menzen _ _ Ad). }
      assert (D2x : Ok re' = Ok re).
      { rewrite <- D2, <- D2'. unfold reach_candidates. now rewrite (cp_reaches _ _ Ad), (cp_menzen _ _ Ad), (cp_ht _ _ Ad). }
      assert (D3x : Ok ank' = Ok ank) by (rewrite <- D3, <- D3'; now rewrite (cp_ht _ _ Ad)).
      assert (D4x : Ok kak' = Ok kak).
      { rewrite <- D4, <- D4'. destruct (cp_melds _ _ Ad) as [<- Fx]. apply kakan_copy; [apply (cp_hands _ _ Ad); lia|].
        rewrite Forall_forall in Fx. unfold row. destruct (Nat.lt_ge_cases (Z.to_nat w) (List.length (s_melds (at_draw (Z.to_nat w) x s)))) as [I|I]; [apply Fx; now apply nth_In|rewrite nth_overflow by exact I; constructor]. }
      apply Ok_inj in D1x, D2x, D3x, D4x. subst ag' re' ank' kak'.
      constructor; [exact A'| | | |].
      + revert F1 G1. generalize (apply (PlDraw w x) s) (apply (PlDraw w (f x)) t). intros sa ta F1 G1.
        change (DuringTurn w (capture n (Z.to_nat w) (at_draw (Z.to_nat w) (f x) t)) [ag; re; ank ++ kak] (ntokens t) :: s_half ta =
          map ren_half (DuringTurn w (capture n (Z.to_nat w) (at_draw (Z.to_nat w) x s)) [ag; re; ank ++ kak] (ntokens s) :: s_half sa)).
        rewrite F1, G1, C, H, Nt. reflexivity.
      + revert F1. generalize (apply (PlDraw w x) s). intros sa F1.
        change (Forall tile_ok (DuringTurn w (capture n (Z.to_nat w) (at_draw (Z.to_nat w) x s)) [ag; re; ank ++ kak] (ntokens s) :: s_half sa)).
        rewrite F1. constructor; [exact I|exact Ti].
      + revert F2 G2. generalize (apply (PlDraw w x) s) (apply (PlDraw w (f x)) t). intros sa ta F2 G2. change (s_tokens sa = s_tokens ta). congruence.
      + change (Some (capture n (Z.to_nat w) (at_draw (Z.to_nat w) (f x) t)) = Some (ren_so (capture n (Z.to_nat w) (at_draw (Z.to_nat w) x s)))). now rewrite C.
    - destruct Re as [V ->]. cbn [astep seated] in *. assert (Ew : w = Z.of_nat (Z.to_nat w)) by lia.
      apply discard_inv in E1 as (_ & so & acq & tok & rons & nakis & D1 & D2 & D3 & D4 & D5 & _ & ->); [|lia|exact Ws].
      apply discard_inv in E2 as (_ & so' & acq' & tok' & rons' & nakis' & D1' & D2' & D3' & D4' & D5' & _ & ->); [|lia|exact Wt].
      rewrite <- Ew in *. rewrite (copy_tix x V) in *.
      assert (Es : so' = ren_so so) by (rewrite D1 in O; cbn [option_map] in O; congruence). subst so'.
      destruct (cp_acquired _ _ A) as [Qa Va]. rewrite D2 in Qa. cbn [option_map] in Qa. rewrite Qa in D2'. injection D2' as <-. specialize (Va acq D2).
      assert (X : (f x =? f acq) = (x =? acq)).
      { destruct (Z.eqb_spec x acq) as [->|N]; [apply Z.eqb_refl|]. apply Z.eqb_neq. intros E. apply N. apply (rn_inj f F); assumption. }
      rewrite X, D3 in D3'. apply Ok_inj in D3'. subst tok'.
      assert (R : rons' = rons).
      { rewrite <- (cp_rtsumo _ _ A), <- (cp_cycles _ _ A), <- (cp_menzen _ _ A), <- (proj1 (cp_melds _ _ A)), <- (cp_htf _ _ Aa), <- (cp_sute _ _ Aa) in D4'.
        rewrite (ron_copy _ _ _ _ _ _ _ _ _ _ _ A V), D4 in D4'. apply Ok_inj in D4'. congruence. }
      subst rons'. rewrite <- (cp_ht _ _ Aa), D5 in D5'. apply Ok_inj in D5'. subst nakis'.
      constructor; [exact A'| | | |].
      + revert F1 G1. generalize (apply (PlDiscard w x) s) (apply (PlDiscard w (f x)) t). intros sa ta F1 G1. cbn [s_half add_token set_tokens set_cur add_half set_half].
        rewrite F1, G1, H, Nt. reflexivity.
      + revert F1. generalize (apply (PlDiscard w x) s). intros sa F1. cbn [s_half add_token set_tokens set_cur add_half set_half]. rewrite F1.
        constructor; [exact I|]. constructor; [exact V|exact Ti].
      + revert F2 G2. generalize (apply (PlDiscard w x) s) (apply (PlDiscard w (f x)) t). intros sa ta F2 G2. cbn [s_tokens add_token set_tokens set_cur add_half set_half]. congruence.
      + revert F4 G4. generalize (apply (PlDiscard w x) s) (apply (PlDiscard w (f x)) t). intros sa ta F4 G4. cbn [s_sobj add_token set_tokens set_cur add_half set_half]. congruence.
    - destruct Re as (R & -> & Fx & P). cbn [astep] in *. apply bind_ok in E1 as (u1 & _ & E1). apply bind_ok in E2 as (u2 & _ & E2).
      apply bind_ok in E1 as (nk & M & E1). apply bind_ok in E2 as (nk' & M' & E2). rewrite M in M'. apply Ok_inj in M'. subst nk'.
      apply (call_inv L n s w c nk s' Ws M) in E1 as (Gu & tok & K1 & E1). apply (call_inv L n t w c nk t' Wt M) in E2 as (_ & tok' & K2 & E2).
      rewrite K1 in K2. apply Ok_inj in K2. subst tok'. cbv zeta in E1, E2. destruct E1 as (hs & Es & E1). destruct E2 as (hs' & Et & E2).
      set (dn := if is_ankan c || is_kakan c then _ else _) in E1. set (dn' := if is_ankan c || is_kakan c then _ else _) in E2.
      assert (D : dn' = map ren_half dn /\ Forall tile_ok dn).
      { unfold dn, dn'. rewrite H. destruct (_ || _); [split; [apply upd_during_ren|now apply upd_during_tiles]|split; [apply upd_post_ren|now apply upd_post_tiles]]. }
      destruct D as [D Dt].
      assert (C : capture n (Z.to_nat w) (at_call w c t) = ren_so (capture n (Z.to_nat w) (at_call w c s))).
      { apply capture_twin. unfold at_call. rewrite (cp_ippatsu _ _ A). now apply copied_ippatsu. }
      assert (Hh : hs' = map ren_half hs /\ Forall tile_ok hs).
      { destruct (is_kakan c) eqn:Ek.
        - destruct E1 as (rons & R1 & _ & ->). destruct E2 as (rons' & R2 & _ & ->).
          assert (Rr : rons' = rons).
          { rewrite <- (proj1 (cp_melds _ _ Aa)), <- (cp_htf _ _ Aa), <- (cp_sute _ _ Aa) in R2.
            assert (Vx : valid_id (hd 0 (shown_by c)) /\ f (hd 0 (shown_by c)) = hd 0 (shown_by c)).
            { pose proof (call_tiles c R) as V. apply Forall_app in V as [V _]. apply Forall_app in Fx as [Fx _].
              destruct (shown_by c) as [|y l] eqn:Ey; [|inversion V; inversion Fx; subst; auto].
              exfalso. exact (kakan_shows c R Ek (proj1 (proj2 (proj2 Gu))) Ey). }
            destruct Vx as [Vx Ex]. rewrite <- Ex in R2. rewrite (ron_copy _ _ _ _ _ _ _ _ _ _ _ Aa Vx), R1 in R2. apply Ok_inj in R2. congruence. }
          subst rons'. rewrite C, D, Nt. split; [reflexivity|]. constructor; [exact I|exact Dt].
        - subst hs hs'. auto. }
      destruct Hh as [Hh Ht].
      constructor; [exact A'| | | |]; rewrite Es; rewrite ?Et.
      + exact Hh.
      + exact Ht.
      + revert F2 G2. generalize (apply (PlCall w c) s) (apply (PlCall w c) t). intros sa ta F2 G2. cbn [s_tokens add_token set_tokens set_cur set_sobj set_half]. congruence.
      + change (Some (capture n (Z.to_nat w) (at_call w c t)) = Some (ren_so (capture n (Z.to_nat w) (at_call w c s)))). now rewrite C.
    - subst b. cbn [astep] in *. apply bind_ok in E1 as (u1 & _ & E1). apply bind_ok in E2 as (u2 & _ & E2).
      apply reach1_inv in E1 as (_ & ->); [|exact Ws]. apply reach1_inv in E2 as (_ & ->); [|exact Wt].
      constructor; [exact A'| | | |].
      + change (upd_during (fun ds => upd ds DECISION_REACH_IDX exec_first) (s_half t) = map ren_half (upd_during (fun ds => upd ds DECISION_REACH_IDX exec_first) (s_half s))). rewrite H. apply upd_during_ren.
      + now apply (upd_during_tiles (fun ds => upd ds DECISION_REACH_IDX exec_first)).
      + revert F2 G2. generalize (apply (PlReach1 w) s) (apply (PlReach1 w) t). intros sa ta F2 G2. cbn [s_tokens set_half]. congruence.
      + revert F4 G4. generalize (apply (PlReach1 w) s) (apply (PlReach1 w) t). intros sa ta F4 G4. cbn [s_sobj set_half]. congruence.
    - subst b. cbn [astep] in *. apply bind_ok in E1 as (u1 & _ & E1). apply bind_ok in E2 as (u2 & _ & E2).
      apply reach2_inv in E1 as (_ & tok & K1 & ->); [|exact Ws]. apply reach2_inv in E2 as (_ & tok' & K2 & ->); [|exact Wt].
      rewrite K1 in K2. apply Ok_inj in K2. subst tok'.
      revert A' F1 G1 F2 G2 F4 G4. generalize (apply (PlReach2 w) s) (apply (PlReach2 w) t). intros sa ta A' F1 G1 F2 G2 F4 G4.
      constructor; [exact A'| | | |]; cbn [s_half s_tokens s_sobj add_token set_tokens]; congruence.
    - destruct Re as [V ->]. cbn [astep] in *.
      apply dora_inv in E1 as (_ & tok & K1 & ->). apply dora_inv in E2 as (_ & tok' & K2 & ->).
      rewrite (copy_tix x V), K1 in K2. apply Ok_inj in K2. subst tok'.
      revert A' F1 G1 F2 G2 F4 G4. generalize (apply (PlDora x) s) (apply (PlDora (f x)) t). intros sa ta A' F1 G1 F2 G2 F4 G4.
      constructor; [exact A'| | | |]; cbn [s_half s_tokens s_sobj add_token set_tokens]; congruence.
  Qed.

  (** ** Rounds *)
  Lemma num_perm k l l' : Permutation l l' -> num k l = num k l'.
  Proof. intros P. unfold num. f_equal. induction P; cbn [filter]; try congruence; repeat destruct (in_class k _); cbn [List.length]; congruence. Qed.
  Lemma dealt_valid e p : Forall valid_id (dealt e p).
  Proof.
    unfold dealt. destruct (dict_get _ _); [|constructor]. destruct (ints _); [|constructor]. apply Forall_map. apply Forall_forall. intros x _. unfold tid, valid_id. apply Z.mod_pos_bound. lia.
  Qed.
  Lemma init_twin go e e' n n' s s' : same_deal_but_copies f e e' -> init_round go e = Ok (n, s) -> init_round go e' = Ok (n', s') -> n = n' /\ twin s s'.
  Proof.
    intros [Q1 Q2 Q3 [Qv Qd] Qh] E1 E2. pose proof (init_inited _ _ _ _ E1) as [W1 D1 V1 _ U1 C1 K1 R1 _]. pose proof (init_inited _ _ _ _ E2) as [W2 D2 V2 _ U2 C2 K2 R2 _].
    assert (X : n = n' /\ s_doras s' = map f (s_doras s) /\ Forall valid_id (s_doras s)).
    { clear - E1 E2 Q1 Q2 Q3 Qv Qd. unfold init_round in E1, E2. unfold seed_of in Q3, Qv, Qd.
      apply bind_ok in E1 as (u1 & _ & E1). apply bind_ok in E1 as (ten & Eten & E1). apply bind_ok in E1 as (scores & Esc & E1).
      apply bind_ok in E1 as (oya & Eo & E1). apply bind_ok in E1 as (parent & Ep & E1). apply bind_ok in E1 as (pi & Epi & E1).
      apply bind_ok in E1 as (seed & Eseed & E1). apply bind_ok in E1 as (sd & Esd & E1).
      apply bind_ok in E2 as (u1' & _ & E2). rewrite Q1, Eten in E2. cbn [bind] in E2. rewrite Esc in E2. cbn [bind] in E2.
      rewrite Q2, Eo in E2. cbn [bind] in E2. rewrite Ep in E2. cbn [bind] in E2. rewrite Epi in E2. cbn [bind] in E2.
      apply bind_ok in E2 as (seed' & Eseed' & E2). apply bind_ok in E2 as (sd' & Esd' & E2).
      rewrite Eseed, Esd, Eseed', Esd' in *.
      destruct sd as [|c0 [|honba [|kyo [|d1 [|d2 [|dora [|]]]]]]]; try discriminate E1.
      destruct sd' as [|c0' [|honba' [|kyo' [|d1' [|d2' [|dora' [|]]]]]]]; try discriminate E2.
      cbn [firstn nth] in Q3, Qv, Qd. injection Q3 as -> -> -> -> ->. subst dora'.
      apply bind_ok in E1 as (his & _ & E1). apply bind_ok in E1 as ([[hts povs] rem] & _ & E1).
      apply bind_ok in E1 as (di & _ & E1). apply bind_ok in E1 as (hands & _ & E1).
      apply bind_ok in E1 as (u2 & _ & E1). apply bind_ok in E1 as (u3 & _ & E1). apply bind_ok in E1 as (u4 & _ & E1).
      apply bind_ok in E2 as (his' & _ & E2). apply bind_ok in E2 as ([[hts' povs'] rem'] & _ & E2).
      apply bind_ok in E2 as (di' & _ & E2). apply bind_ok in E2 as (hands' & _ & E2).
      apply bind_ok in E2 as (u2' & _ & E2). apply bind_ok in E2 as (u3' & _ & E2). apply bind_ok in E2 as (u4' & _ & E2).
      apply Ok_inj in E1, E2. apply pair_equal_spec in E1, E2. destruct E1 as [<- <-]. destruct E2 as [<- <-]. split; [reflexivity|]. split; [reflexivity|]. constructor; [exact Qv|constructor]. }
    destruct X as [X1 X2]. split; [exact X1|].
    destruct W1 as (A1 & A2 & A3 & A4 & A5 & A6 & _ & A7 & A8 & A9 & A10 & _). destruct W2 as (B1 & B2 & B3 & B4 & B5 & B6 & _ & B7 & B8 & B9 & B10 & _).
    destruct R1 as (R1 & R2' & R3 & R4 & R5 & R6 & R7 & R8 & R9 & R10 & R11 & R12). destruct R2 as (T1 & T2 & T3 & T4 & T5 & T6 & T7 & T8 & T9 & T10 & T11 & T12).
    constructor; [|now rewrite R11, T11|rewrite R11; constructor|congruence|now rewrite R10, T10].
    assert (Nm : forall p k, (p < 4)%nat -> num k (dealt e' p) = num k (dealt e p)).
    { intros p k Hp. rewrite (num_perm k _ _ (Qh p Hp)). apply copy_num. apply dealt_valid. }
    assert (Ni : forall k, num k [first_indicator e'] = num k [first_indicator e]).
    { intros k. unfold first_indicator. rewrite Qd, (tid_valid _ Qv), (tid_valid _ (rn_valid f F _ Qv)). apply (copy_num k [nth 5 (seed_of e) 0]). constructor; [exact Qv|constructor]. }
    constructor; try congruence; try exact X2.
    - intros p Hp x Vx. destruct (D1 p Hp) as (_ & _ & _ & _ & _ & H1). destruct (D2 p Hp) as (_ & _ & _ & _ & _ & H2).
      specialize (H1 x Vx). pose proof (rn_valid f F x Vx) as Vf. specialize (H2 (f x) Vf).
      assert (I : In (f x) (dealt e' p) <-> In x (dealt e p)).
      { split; intros I.
        - apply (Permutation_in _ (Qh p Hp)) in I. apply in_map_iff in I as (y & Ey & I). pose proof (dealt_valid e p) as Dv. rewrite Forall_forall in Dv.
          rewrite <- (rn_inj f F y x (Dv y I) Vx Ey). exact I.
        - apply (Permutation_in _ (Permutation_sym (Qh p Hp))). now apply in_map. }
      destruct (in_dec Z.eq_dec x (dealt e p)) as [J|J]; [rewrite (proj1 H1 J), (proj1 H2 (proj2 I J))|rewrite (proj2 H1 J), (proj2 H2 (fun K => J (proj1 I K)))]; reflexivity.
    - apply (nth_ext _ _ [] []); [congruence|]. intros p Hp. rewrite A3 in Hp. apply (vec_ext 37); [exact (row_len 4 _ _ _ A3 A4 Hp)|exact (row_len 4 _ _ _ B3 B4 Hp)|]. intros k Hk.
      destruct (V1 p k Hp Hk) as (H1 & _). destruct (V2 p k Hp Hk) as (H2 & _). unfold row in H1, H2. rewrite H1, H2. now rewrite Nm.
    - apply (nth_ext _ _ [] []); [congruence|]. intros p Hp. rewrite A5 in Hp. apply (vec_ext 37); [exact (row_len 4 _ _ _ A5 A6 Hp)|exact (row_len 4 _ _ _ B5 B6 Hp)|]. intros k Hk.
      destruct (V1 p k Hp Hk) as (_ & H1 & _). destruct (V2 p k Hp Hk) as (_ & H2 & _). unfold row in H1, H2. rewrite H1, H2. now rewrite Nm.
    - apply (nth_ext _ _ [] []); [congruence|]. intros p Hp. rewrite A7 in Hp. apply (vec_ext 37); [exact (row_len 4 _ _ _ A7 A8 Hp)|exact (row_len 4 _ _ _ B7 B8 Hp)|]. intros k Hk.
      destruct (V1 p k Hp Hk) as (_ & _ & H1). destruct (V2 p k Hp Hk) as (_ & _ & H2). unfold row in H1, H2. rewrite H1, H2. now rewrite Nm, Ni.
    - apply (nth_ext _ _ [] []); [congruence|]. intros q Hq. rewrite A9 in Hq. apply (vec_ext 37); [exact (row_len 4 _ _ _ A9 A10 Hq)|exact (row_len 4 _ _ _ B9 B10 Hq)|].
      intros k _. specialize (U1 q k). specialize (U2 q k). unfold row in *. congruence.
    - rewrite C1, C2. unfold initial_scores. now rewrite Q1.
    - rewrite K1, K2. unfold initial_sticks. change (nth 2 (seed_of e) 0) with (vget (seed_of e) 2). change (nth 2 (seed_of e') 0) with (vget (seed_of e') 2).
      rewrite <- (vget_firstn 5 (seed_of e)), <- (vget_firstn 5 (seed_of e')) by lia. now rewrite Q3.
    - rewrite R6, T6. split; [reflexivity|]. repeat constructor.
    - rewrite R9, T9. split; [reflexivity|discriminate].
  Qed.

  Lemma runs_twin go e e' evs evs' n n' s s' pls pls' : runs L go e evs n s pls -> runs L go e' evs' n' s' pls' ->
    same_deal_but_copies f e e' -> Forall2 (renamed f) pls pls' -> n = n' /\ twin s s'.
  Proof.
    intros R R' D Sg. apply runs_plays in R as (s0 & I & E0 & Sp & E). apply runs_plays in R' as (t0 & I' & E0' & Sp' & E').
    destruct (init_twin _ _ _ _ _ _ _ D E0 E0') as [<- Lk]. split; [reflexivity|].
    apply in_wf in I, I'. clear E0 E0' D. revert s0 t0 I I' Sp Sp' E E' Lk.
    induction Sg as [|a b pls pls' Sa Sg IH]; intros s0 t0 W W' Sp Sp' E E' Lk.
    - cbn in E, E'. congruence.
    - cbn in E, E'. apply bind_ok in E as (s1 & E1 & E). apply bind_ok in E' as (t1 & E1' & E').
      inversion Sp as [|? ? Pa Sp1]; subst. inversion Sp' as [|? ? Pb Sp1']; subst.
      pose proof (twin_step _ _ _ _ _ _ _ W W' Pa Pb Sa Lk E1 E1') as Lk1.
      apply (IH s1 t1); auto; [exact (astep_wf _ _ _ _ _ W Pa E1)|exact (astep_wf _ _ _ _ _ W' Pb E1')].
  Qed.

  (** ** Samples *)
  Lemma mapM_map {A C D} (g : A -> C) (h : C -> res D) l : mapM h (map g l) = mapM (fun x => h (g x)) l.
  Proof. induction l as [|x l IH]; [reflexivity|]. cbn [map mapM]. now rewrite IH. Qed.
  Lemma observe_twin s t o : copied s t -> forall a, convert_state a (observe t (ren_so o)) = convert_state a (observe s o) /\ sv_hand (observe t (ren_so o)) = sv_hand (observe s o).
  Proof.
    intros A a. unfold convert_state, observe. cbn [sv_obj sv_hand sv_pov sv_menzen ren_so so_sutehai so_player so_scores so_parent_tensor so_parent_rounds_remaining so_double_reaches so_reaches so_ippatsu
      so_remaining_tsumo so_kyotaku so_honba so_rounds_remaining].
    rewrite (cp_ht _ _ A), (cp_pov _ _ A), (cp_menzen _ _ A). auto.
  Qed.
  Lemma build_twin a s t tokens : twin s t ->
    build_tensors a (map (map_half (observe t)) (rev (s_half t))) tokens = build_tensors a (map (map_half (observe s)) (rev (s_half s))) tokens.
  Proof.
    intros [A H Ti _ _]. rewrite H, <- map_rev. assert (Tr : Forall tile_ok (rev (s_half s))) by (apply Forall_rev; exact Ti). revert Tr. generalize (rev (s_half s)). intros l Tr. clear H Ti.
    unfold build_tensors. rewrite !mapM_map.
    match goal with |- bind ?m _ = bind ?m' _ => assert (E1 : m = m') end.
    { apply mapM_ext_in. intros h _. destruct h as [q o ds i|q o x i|q o ds i]; cbn [ren_half map_half]; try reflexivity. unfold during_sample. now rewrite (proj1 (observe_twin _ _ o A a)). }
    rewrite E1. clear E1. destruct (mapM _ l) as [d1|]; [|reflexivity]. cbn [bind]. destruct (passert _); [|reflexivity]. cbn [bind].
    match goal with |- bind ?m _ = bind ?m' _ => assert (E2 : m = m') end.
    { apply mapM_ext_in. intros h Ih. rewrite Forall_forall in Tr. specialize (Tr h Ih). destruct h as [q o ds i|q o x i|q o ds i]; cbn [ren_half map_half]; try reflexivity. cbn [tile_ok] in Tr.
      unfold discard_sample. destruct (observe_twin _ _ o A a) as [-> ->]. rewrite !tile2idx_valid by (assumption || exact (rn_valid f F x Tr)). now rewrite copy_tix. }
    rewrite E2. clear E2. destruct (mapM _ l) as [d2|]; [|reflexivity]. cbn [bind]. destruct (passert _); [|reflexivity]. cbn [bind].
    match goal with |- bind ?m _ = bind ?m' _ => assert (E3 : m = m') end.
    { apply mapM_ext_in. intros h _. destruct h as [q o ds i|q o x i|q o ds i]; cbn [ren_half map_half]; try reflexivity. unfold post_sample. now rewrite (proj1 (observe_twin _ _ o A a)). }
    now rewrite E3.
  Qed.
End Copies.
