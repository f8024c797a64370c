(** The half-turns of an accepted round can always be turned into samples. *)
From Coq Require Import ZArith List Bool String Ascii Lia PeanoNat Permutation.
From Verif Require Import Base Constants Naki Decision Tokens GameInfo Agari Process VecLemmas
  SpecMeld SpecTokens SpecRound SpecDecision SpecTurn SpecLabels NakiProofs NakiLemmas NakiCore NakiLemmas2 TokensLemmas DecisionProofs DecisionLemmas
  RoundLemmas RoundInv RoundTiles RoundInit RoundBook RoundFlags RoundSplit RoundHalf RoundFacts RoundQuery RoundCount RoundLabels RoundMelds AgariLemmas TurnFacts
  Tensor SpecTensor TensorLemmas.
Import ListNotations.
Open Scope Z_scope.

(** ** Action numbers of candidates *)
Definition q_idx (t : Z) (r : bool) (v : view) (nk : naki) : bool :=
  match get_post_turn_filter_idx (nk_code nk) with Ok i => (2 <=? i) && (i <? 154) | Err _ => false end.
Lemma q_idx_all : all_cases (each q_idx) = true.
Proof. vm_cast_no_check (eq_refl true). Qed.

Lemma ankan_idx : forallb (fun k => match from_ankan_info k with Ok nk => match get_during_turn_filter_idx (nk_code nk) with Ok i => (2 <=? i) && (i <? 71) | Err _ => false end | Err _ => false end) (zrange 34) = true.
Proof. vm_compute. reflexivity. Qed.
Lemma kakan_idx : forallb (fun k => match from_kakan_info k 0 with Ok nk => match get_during_turn_filter_idx (nk_code nk) with Ok i => (2 <=? i) && (i <? 71) | Err _ => false end | Err _ => false end) (zrange 34) = true.
Proof. vm_compute. reflexivity. Qed.
Lemma in_zrange k n : 0 <= k < Z.of_nat n -> In k (zrange n).
Proof. intros H. unfold zrange. apply in_map_iff. exists (Z.to_nat k). split; [lia|]. apply in_seq. lia. Qed.

Definition numbered (act : decision -> Z -> Prop) (n : Z) (d : decision) : Prop := is_call d /\ exists i, act d i /\ 2 <= i < n.

Lemma mask_numbered player hands t r ds q : List.length hands = 4%nat -> 0 <= player < 4 -> 0 <= t < 34 -> 0 <= q < 4 ->
  decision_mask player hands t r = Ok ds -> Forall (numbered post_action 154) (offered ds q).
Proof.
  intros Hl Hpl Ht Hq E. apply Forall_forall. intros d Hin.
  destruct (each_offered _ q_idx_all player hands t r ds q _ Hl Hpl Ht Hq E Hin) as (_ & nk & -> & Q).
  unfold q_idx in Q. split; [exact I|]. cbn [post_action]. destruct (get_post_turn_filter_idx (nk_code nk)) as [i|]; [|discriminate Q].
  exists i. split; [reflexivity|]. apply andb_prop in Q as [A B]. apply Z.leb_le in A. apply Z.ltb_lt in B. lia.
Qed.

Lemma kans_numbered w h h136 ms ank kak : 0 <= w -> (forall j, (j < 37)%nat -> vget h j <= class_size j) -> Forall good_meld ms ->
  ankan_candidates (Z.to_nat w) h = Ok ank -> kakan_candidates (Z.to_nat w) h136 ms = Ok kak ->
  Forall (numbered during_action 71) (ank ++ kak).
Proof.
  intros Hw Hc M Ha Hk. pose proof (closed_kan_members _ _ _ Hw Hc Ha) as A. pose proof (added_kan_members _ _ _ _ Hw M Hk) as B.
  pose proof ankan_idx as IA. pose proof kakan_idx as IK. rewrite forallb_forall in IA, IK. clear Ha Hk.
  apply Forall_forall. intros d Hd. apply in_app_iff in Hd as [Hd|Hd].
  - apply A in Hd as (k & nk & Hk0 & _ & Ef & ->). specialize (IA k (in_zrange k 34 Hk0)). rewrite Ef in IA. split; [exact I|]. cbn [during_action].
    destruct (get_during_turn_filter_idx (nk_code nk)) as [i|]; [|discriminate IA]. exists i. split; [reflexivity|].
    apply andb_prop in IA as [X Y]. apply Z.leb_le in X. apply Z.ltb_lt in Y. lia.
  - apply B in Hd as (m & k & nk & _ & _ & Hk0 & _ & _ & Ef & ->). specialize (IK k (in_zrange k 34 Hk0)). rewrite Ef in IK. split; [exact I|]. cbn [during_action].
    destruct (get_during_turn_filter_idx (nk_code nk)) as [i|]; [|discriminate IK]. exists i. split; [reflexivity|].
    apply andb_prop in IK as [X Y]. apply Z.leb_le in X. apply Z.ltb_lt in Y. lia.
Qed.

(** ** Recorded half-turns are well formed *)
Lemma win_proper b p : (List.length (win_if b p) <= 1)%nat /\ Forall is_win (win_if b p).
Proof. destruct b; cbn; split; repeat constructor. Qed.

(** Marking changes no action. *)
Lemma set_executed_action d i : (during_action (set_executed d) i <-> during_action d i) /\ (post_action (set_executed d) i <-> post_action d i) /\
  (is_win (set_executed d) <-> is_win d) /\ (is_riichi (set_executed d) <-> is_riichi d) /\ (is_call (set_executed d) <-> is_call d).
Proof. destruct d; cbn; tauto. Qed.
Lemma exec_match_numbered act n cv l : (forall d i, act (set_executed d) i <-> act d i) -> Forall (numbered act n) l -> Forall (numbered act n) (exec_match cv l).
Proof.
  intros A. induction 1 as [|d l (H1 & i & H2 & H3) F IH]; [constructor|]. cbn [exec_match]. 
  destruct (matches cv d).
  - constructor; [|exact F || exact IH]. split; [now apply set_executed_action|]. exists i. split; [now apply A|exact H3].
  - constructor; [|exact IH]. split; [exact H1|eauto].
Qed.
Lemma mark_calls act n ds cv : (forall d i, act (set_executed d) i <-> act d i) -> proper act n ds -> proper act n (upd ds DECISION_NAKI_IDX (exec_match cv)).
Proof.
  intros A (w & r & c & -> & H1 & H2 & H3 & H4 & H5). exists w, r, (exec_match cv c). unfold DECISION_NAKI_IDX. cbn [upd].
  repeat (split; [reflexivity || assumption|]). apply exec_match_numbered; assumption.
Qed.
Lemma mark_riichi n ds : proper during_action n ds -> proper during_action n (upd ds DECISION_REACH_IDX exec_first).
Proof.
  intros (w & r & c & -> & H1 & H2 & H3 & H4 & H5). exists w, (exec_first r), c. unfold DECISION_REACH_IDX. cbn [upd].
  split; [reflexivity|]. split; [exact H1|]. split; [destruct r; exact H2|]. split; [exact H3|]. split; [|exact H5].
  destruct r as [|d r]; [constructor|]. cbn [exec_first]. inversion H4; subst. constructor; [now apply set_executed_action|assumption].
Qed.

(** ** Induction over a run, with the run up to each point *)
Lemma runs_ind L go e0 n (I : list play -> rstate -> Prop) :
  (forall s0, inited e0 s0 -> init_round go e0 = Ok (n, s0) -> I [] s0) ->
  (forall evs evs' h a s s', runs L go e0 evs n s h -> runs L go e0 evs' n s' (h ++ [a]) -> I h s -> wf s -> seated a -> guard a s ->
     astep L n s a = Ok s' -> strip s' = strip (apply a s) -> I (h ++ [a]) s') ->
  forall pls evs s, runs L go e0 evs n s pls -> I pls s.
Proof.
  intros I0 Is pls. induction pls as [|a h IH] using rev_ind; intros evs s R.
  - pose proof R as R'. apply runs_plays in R as (s0 & In0 & E0 & _). 
    destruct R' as (s0' & E0' & F & P). rewrite E0 in E0'. apply Ok_inj in E0'. injection E0' as <-.
    destruct evs; [|discriminate P]. cbn in F. apply Ok_inj in F. subst s. now apply I0.
  - pose proof R as R'. destruct (runs_snoc _ _ _ _ _ _ _ _ R) as (evs1 & ev & s1 & _ & R1 & W & S & E & G & Es).
    exact (Is _ _ _ _ _ _ R1 R' (IH _ _ R1) W S G E Es).
Qed.

(** ** Sizes of hands *)
Lemma bits_clear c m k : Z.land c m = 0 -> Z.land m k = k -> Z.land c k = 0.
Proof. intros H <-. rewrite Z.land_assoc, H. reflexivity. Qed.
Lemma kan_bits c : is_ankan c = true \/ is_minkan c = true -> is_chi c = false /\ is_pon c = false /\ is_kakan c = false.
Proof.
  intros H. assert (Z0 : Z.land c 0x3C = 0).
  { unfold is_ankan, is_minkan in H. destruct H as [H|H]; apply andb_prop in H as [H _]; now apply Z.eqb_eq in H. }
  assert (A : is_chi c = false) by (unfold is_chi; rewrite (bits_clear c 0x3C 0x4 Z0 eq_refl); reflexivity).
  unfold is_pon, is_kakan. rewrite A. rewrite (bits_clear c 0x3C 0x8 Z0 eq_refl), (bits_clear c 0x3C 0x10 Z0 eq_refl). auto.
Qed.
Lemma pop_some {A} (l : list A) : forall i, (i < List.length l)%nat -> exists a r, pop l i = Some (a, r) /\ List.length l = S (List.length r).
Proof.
  induction l as [|x l IH]; intros [|i] H; cbn [List.length pop] in *; try lia; [eauto|].
  destruct (IH i ltac:(lia)) as (a & r & -> & E). exists a, (x :: r). cbn [List.length]. auto.
Qed.
Lemma popz_some l w : 0 <= w < Z.of_nat (List.length l) -> exists a r, popz l w = (Some a, r) /\ List.length l = S (List.length r).
Proof. intros H. unfold popz. destruct (pop_some l (Z.to_nat w) ltac:(lia)) as (a & r & -> & E). eauto. Qed.
Lemma filter3' z : 0 <= z < 4 -> List.length (filter (fun k => negb (k =? z)%Z) [0; 1; 2; 3]%Z) = 3%nat.
Proof. intros H. assert (E : z = 0 \/ z = 1 \/ z = 2 \/ z = 3) by lia. destruct E as [-> | [-> | [-> | ->]]]; reflexivity. Qed.

Lemma shown_exact c : (exists e, get_exposed c = Ok e) -> is_pon c && is_kakan c = false ->
  (if is_ankan c || is_kakan c then List.length (shown_by c) = 4%nat \/ List.length (shown_by c) = 1%nat
   else if is_minkan c then List.length (shown_by c) = 3%nat
   else List.length (shown_by c) = 2%nat /\ claimed_by c <> []).
Proof.
  intros ([ex a] & E) Amb. unfold shown_by, claimed_by. rewrite E. revert E. unfold get_exposed.
  destruct (is_chi c) eqn:Ec.
  { assert (K : is_ankan c || is_kakan c = false /\ is_minkan c = false).
    { unfold is_kakan. rewrite Ec. cbn [negb andb]. rewrite orb_false_r. split; [destruct (is_ankan c) eqn:X|destruct (is_minkan c) eqn:X]; auto;
      destruct (kan_bits c ltac:(auto)) as (Y & _); congruence. }
    destruct K as [-> ->]. unfold pattern_chi.
    destruct (popz_some (map (fun ic : Z * Z => (9 * (Z.shiftr (Z.land c 64512) 10 / 3 / 7) + (Z.shiftr (Z.land c 64512) 10 / 3) mod 7 + fst ic) * 4 + snd ic)
       (combine [0; 1; 2] [Z.shiftr (Z.land c 24) 3; Z.shiftr (Z.land c 96) 5; Z.shiftr (Z.land c 384) 7])) (Z.shiftr (Z.land c 64512) 10 mod 3)) as (a0 & r & Ep & El).
    { cbn [List.length map combine]. apply Z.mod_pos_bound. lia. }
    rewrite Ep. intros H. injection H as <- <-. cbn [p_exposed] in *. cbn [List.length map combine] in El. split; [lia|discriminate]. }
  destruct (is_pon c) eqn:Epn.
  { cbn [andb] in Amb. rewrite Amb.
    assert (K : is_ankan c || false = false /\ is_minkan c = false).
    { rewrite orb_false_r. split; [destruct (is_ankan c) eqn:X|destruct (is_minkan c) eqn:X]; auto; destruct (kan_bits c ltac:(auto)) as (_ & Y & _); congruence. }
    destruct K as [-> ->]. unfold pattern_pon.
    assert (Hz : 0 <= Z.shiftr (Z.land c 96) 5 < 4).
    { rewrite Z.shiftr_div_pow2 by lia. assert (0 <= Z.land c 96 <= 96).
      { split; [apply Z.land_nonneg; right; lia|]. replace (Z.land c 96) with (Z.land (Z.land c 127) 96) by (rewrite <- Z.land_assoc; reflexivity).
        assert (B : 0 <= Z.land c 127 < 128) by (change 127 with (Z.ones 7); rewrite Z.land_ones by lia; apply Z.mod_pos_bound; reflexivity).
        revert B. generalize (Z.land c 127). intros x B. destruct (Z.land x 96 <=? 96) eqn:X; [now apply Z.leb_le|exfalso].
        assert (F : forallb (fun y => Z.land y 96 <=? 96) (zrange 128) = true) by reflexivity. rewrite forallb_forall in F. rewrite F in X; [discriminate|]. now apply in_zrange. }
      change (2 ^ 5) with 32. split; [apply Z.div_pos; lia|apply Z.div_lt_upper_bound; lia]. }
    match goal with |- context [popz ?l ?w] => destruct (popz_some l w) as (a0 & r & Ep & El) end.
    { rewrite map_length, filter3' by exact Hz. apply Z.mod_pos_bound. lia. }
    rewrite Ep. intros H. injection H as <- <-. cbn [p_exposed]. rewrite map_length, filter3' in El by exact Hz. split; [lia|discriminate]. }
  destruct (is_kakan c) eqn:Ek.
  { intros H. injection H as <- <-. rewrite orb_true_r. right. reflexivity. }
  destruct (is_minkan c) eqn:Em.
  { assert (K : is_ankan c = false).
    { unfold is_ankan. unfold is_minkan in Em. apply andb_prop in Em as [-> Em]. apply negb_true_iff in Em. now rewrite Em. }
    rewrite K. cbn [orb]. unfold pattern_minkan. 
    match goal with |- context [popz ?l ?w] => destruct (popz_some l w) as (a0 & r & Ep & El) end.
    { cbn [List.length map]. apply Z.mod_pos_bound. lia. }
    rewrite Ep. intros H. injection H as <- <-. cbn [p_exposed] in *. cbn [List.length map] in El. lia. }
  destruct (is_ankan c); [|discriminate]. intros H. injection H as <- <-. cbn [orb]. left. reflexivity.
Qed.

Definition hand_size (q : Z) (h : list play) : Z := 13 + zlen (drawn q h) - zlen (discarded q h) - zlen (shown q h).
Lemma hand_size_app q a b : hand_size q (a ++ b) = hand_size q a + (hand_size q b - 13).
Proof. unfold hand_size, drawn, discarded, shown. rewrite !flat_map_app, !zlen_app. lia. Qed.

Definition size_inv (h : list play) (s : rstate) : Prop :=
  consistent h -> unambiguous h -> forall q, 0 <= q < 4 ->
    hand_size q h mod 3 = if (match s_acquired s with Some _ => true | None => false end) && (q =? turn (-1) h) then 2 else 1.

Lemma mod3_step x d r r' : x mod 3 = r -> (r + d) mod 3 = r' -> (x + d) mod 3 = r'.
Proof. intros <- <-. now rewrite Z.add_mod_idemp_l by lia. Qed.

Lemma size_inv_holds L go e0 evs n s pls : runs L go e0 evs n s pls -> size_inv pls s.
Proof.
  revert evs s. revert pls. refine (fun pls evs s => runs_ind L go e0 n size_inv _ _ pls evs s).
  - intros s0 In0 _ _ _ q Hq. destruct (in_rest _ _ In0) as (_ & _ & _ & _ & _ & _ & _ & _ & -> & _). reflexivity.
  - clear pls evs s. intros evs evs' h a s s' R R' IH W S G E Es Co Un q Hq.
    pose proof (pot_inv_holds _ _ _ _ _ _ _ R) as (P1 & P2 & _).
    unfold consistent in Co. apply in_turn_app in Co as [Co Ca].
    assert (Un' : unambiguous h) by (intros w c Hin; apply (Un w c), in_app_iff; now left).
    specialize (IH Co Un' q Hq). rewrite hand_size_app, turn_app.
    apply strip_fields in Es as (_ & _ & _ & _ & _ & _ & _ & _ & _ & _ & _ & _ & _ & _ & _ & _ & Ea). rewrite Ea, ap_acquired. clear Ea E.
    destruct a as [w t|w t|w c|w|w|t]; cbn [turn in_turn seated guard] in *.
    + destruct G as (Ga & _). rewrite Ga in IH. cbn [andb] in IH. eapply mod3_step; [exact IH|].
      unfold hand_size, drawn, discarded, shown, zlen. cbn [flat_map app List.length]. rewrite Z.eqb_sym. destruct (q =? w); reflexivity.
    + destruct G as (Ga & _). destruct Ca as [-> _]. destruct (s_acquired s) as [acq|]; [|congruence]. cbn [andb] in *.
      eapply mod3_step; [exact IH|]. unfold hand_size, drawn, discarded, shown, zlen. cbn [flat_map app List.length]. rewrite (Z.eqb_sym _ q).
      destruct (q =? turn (-1) h); reflexivity.
    + destruct G as (Hw & _ & Ge & Gc & _). destruct Ca as [Ca _].
      assert (Am : is_pon c && is_kakan c = false) by (apply (Un w c), in_app_iff; right; now left).
      pose proof (shown_exact c Ge Am) as Sh.
      assert (Hs : hand_size q [PlCall w c] - 13 = if w =? q then - zlen (shown_by c) else 0).
      { unfold hand_size, drawn, discarded, shown, zlen. cbn [flat_map app List.length]. rewrite app_nil_r. destruct (w =? q); [rewrite map_length|cbn [List.length]]; lia. }
      rewrite Hs. clear Hs. unfold zlen.
      destruct (is_ankan c || is_kakan c) eqn:Ek.
      * rewrite <- orb_assoc, Ek, orb_true_r. specialize (P1 Gc). destruct (s_acquired s) as [acq|]; [|discriminate P1]. subst w. cbn [andb] in *.
        eapply mod3_step; [exact IH|]. rewrite (Z.eqb_sym _ q). destruct (q =? turn (-1) h); [|reflexivity]. destruct Sh as [-> | ->]; reflexivity.
      * rewrite <- orb_assoc, Ek, orb_false_r. specialize (P2 Gc). destruct (s_acquired s) as [acq|]; [discriminate P2|]. cbn [andb] in *.
        eapply mod3_step; [exact IH|]. destruct (is_minkan c).
        -- cbn [andb]. destruct (w =? q); [rewrite Sh|]; reflexivity.
        -- destruct Sh as [Sh Cl]. destruct (claimed_by c) as [|x l]; [contradiction|]. cbn [hd_error andb]. rewrite (Z.eqb_sym q w). destruct (w =? q); [rewrite Sh|]; reflexivity.
    + rewrite Z.add_0_r. exact IH.
    + rewrite Z.add_0_r. exact IH.
    + rewrite Z.add_0_r. exact IH.
Qed.

Lemma hand_nonempty L go e0 evs n s pls p : runs L go e0 evs n s pls -> consistent pls -> unambiguous pls -> 0 <= p < 4 ->
  exists c, In c (vec (s_ht s) p) /\ c <> 0.
Proof.
  intros R Co Un Hp. pose proof (size_inv_holds _ _ _ _ _ _ _ R Co Un p Hp) as Hm.
  destruct (hands_exact _ _ _ _ _ _ _ p R Hp) as (hl & Nd & Fr & Pm & _ & Hc & _).
  assert (D : List.length (dealt e0 (Z.to_nat p)) = 13%nat).
  { apply runs_plays in R as (s0 & In0 & _). destruct (in_deal _ _ In0 (Z.to_nat p) ltac:(lia)) as [D _]. exact D. }
  apply Permutation_length in Pm. rewrite !app_length, D in Pm.
  assert (Hl : hand_size p pls = zlen hl) by (unfold hand_size, zlen; lia). rewrite Hl in Hm.
  destruct hl as [|x hl]; [exfalso; change (zlen (@nil Z) mod 3) with 0 in Hm; destruct (_ && _) in Hm; discriminate Hm|].
  pose proof (Forall_inv Fr) as Hx. cbv beta in Hx.
  assert (K : (Z.to_nat (x / 4) < 34)%nat) by (pose proof (Z.div_pos x 4); pose proof (Z.div_lt_upper_bound x 4 34); lia).
  destruct (Hc (Z.to_nat (x / 4)) ltac:(lia)) as [Hv Hb].
  exists (vget (vec (s_ht s) p) (Z.to_nat (x / 4))). split.
  - unfold vget. apply nth_In.
    assert (Lr : List.length (vec (s_ht s) p) = 37%nat).
    { pose proof (runs_inv_full L go e0 evs n s pls (fun _ _ => True) R (fun _ _ _ => I) (fun _ _ _ _ _ _ _ _ _ _ => I)) as [_ W].
      destruct W as (_ & _ & L4 & Fh & _). unfold vec, row. rewrite Forall_forall in Fh. apply Fh, nth_In. lia. }
    lia.
  - rewrite Hv. unfold num. cbn [filter]. unfold in_class at 1. destruct (Nat.ltb_spec (Z.to_nat (x / 4)) 34); [|lia].
    rewrite Z2Nat.id by (apply Z.div_pos; lia). rewrite Z.eqb_refl. cbn [List.length]. lia.
Qed.

(** ** Recorded state objects have the right sizes *)
Definition sob_ok (e0 : event) (so : sobj) : Prop :=
  List.length (so_sutehai so) = 4%nat /\ (so_player so < 4)%nat /\ List.length (so_scores so) = List.length (initial_scores e0) /\
  List.length (so_parent_tensor so) = 4%nat /\ List.length (so_parent_rounds_remaining so) = 4%nat /\
  List.length (so_double_reaches so) = 4%nat /\ List.length (so_reaches so) = 4%nat /\ List.length (so_ippatsu so) = 4%nat /\
  Forall (fun r => List.length r = 37%nat) (so_sutehai so).

Lemma env_sizes go e0 n s : init_round go e0 = Ok (n, s) -> List.length (n_parent_tensor n) = 4%nat /\ List.length (n_parent_rounds_remaining n) = 4%nat.
Proof.
  unfold init_round. intros H.
  apply bind_ok in H as (u1 & _ & H). apply bind_ok in H as (ten & _ & H). apply bind_ok in H as (scores & _ & H).
  apply bind_ok in H as (oya & _ & H). apply bind_ok in H as (parent & _ & H). apply bind_ok in H as (pi & _ & H).
  apply bind_ok in H as (seed & _ & H). apply bind_ok in H as (sd & _ & H).
  destruct sd as [|c [|ho [|ky [|d1 [|d2 [|dora [|]]]]]]]; try discriminate.
  apply bind_ok in H as (his & _ & H). apply bind_ok in H as (x & _ & H). destruct x as [[hts povs] rem].
  apply bind_ok in H as (di & _ & H). cbv zeta in H. apply bind_ok in H as (hands & _ & H).
  apply bind_ok in H as (u2 & _ & H). apply bind_ok in H as (u3 & _ & H). apply bind_ok in H as (u4 & _ & H).
  apply Ok_inj in H. apply (f_equal fst) in H. cbn [fst] in H. subst n. cbn [n_parent_tensor n_parent_rounds_remaining]. split; [|reflexivity].
  unfold vset. now rewrite length_upd.
Qed.
Lemma run_env L go e0 evs n s pls : runs L go e0 evs n s pls -> List.length (n_parent_tensor n) = 4%nat /\ List.length (n_parent_rounds_remaining n) = 4%nat.
Proof. intros (s0 & E & _). exact (env_sizes _ _ _ _ E). Qed.

Lemma capture_ok L go e0 evs n s pls p t : runs L go e0 evs n s pls -> wf t -> (p < 4)%nat -> List.length (s_scores t) = List.length (initial_scores e0) ->
  sob_ok e0 (capture n p t).
Proof.
  intros R W Hp Hs. destruct (run_env _ _ _ _ _ _ _ R) as [E1 E2]. unfold sob_ok, capture.
  cbn [so_sutehai so_player so_scores so_parent_tensor so_parent_rounds_remaining so_double_reaches so_reaches so_ippatsu].
  destruct W as (_ & _ & _ & _ & _ & _ & _ & _ & _ & W1 & W0 & W2 & W3 & W4 & _ & _). repeat (split; [assumption|]). assumption.
Qed.
Lemma wf_set_ippatsu ip s : wf s -> List.length ip = 4%nat -> wf (set_ippatsu ip s).
Proof. intros (H1 & H2 & H3 & H4 & H5 & H6 & H7 & H8 & H9 & H10 & H11 & H12 & H13 & H14 & H15 & H16) L. destruct s. unfold wf, set_ippatsu in *. cbn in *. repeat (split; [assumption|]). assumption. Qed.

(** What a step does to the recorded half-turns, as far as samples are concerned. *)
Definition half_ok (e0 : event) (h : halfturn sobj) : Prop :=
  well_formed h /\ sob_ok e0 (state_of h) /\ match h with DiscardTurn _ _ t _ => -136 <= t < 136 | _ => True end.

Lemma scores_strip s t : strip s = strip t -> s_scores s = s_scores t.
Proof. intros E. apply strip_fields in E. decompose [and] E. assumption. Qed.

Lemma marked_ok e0 (f : list (list decision) -> list (list decision)) l : (forall ds, proper during_action 71 ds -> proper during_action 71 (f ds)) ->
  Forall (half_ok e0) l -> Forall (half_ok e0) (upd_during f l).
Proof.
  intros Hf F. destruct F as [|h l (W & S & T) F]; [constructor|]. destruct h as [p so ds i| |]; cbn [upd_during]; constructor; try assumption; [|split; [exact W|split; assumption]..].
  split; [cbn [well_formed] in *; auto|]. split; [exact S|exact I].
Qed.
Lemma marked_post_ok e0 cv l : Forall (half_ok e0) l -> Forall (half_ok e0) (upd_post (fun ds => map (fun l => upd l DECISION_NAKI_IDX (exec_match cv)) ds) l).
Proof.
  intros F. destruct F as [|h l (W & S & T) F]; [constructor|]. destruct h as [| |p so ds i]; cbn [upd_post]; constructor; try assumption; [split; [exact W|split; assumption]..|].
  split; [|split; [exact S|exact I]]. cbn [well_formed] in *. destruct W as (W1 & W2 & W3). rewrite map_length. split; [exact W1|]. split; [exact W2|].
  apply Forall_map. eapply Forall_impl; [|exact W3]. intros d. apply mark_calls. intros d' i'. apply set_executed_action.
Qed.

Lemma ds_of_calls (ds : list (list (list decision))) : List.length ds = 4%nat ->
  (forall q, 0 <= q < 4 -> exists b nl, nth (Z.to_nat q) ds [] = [win_if b q; []; nl] /\ Forall (numbered post_action 154) nl) ->
  Forall (proper post_action 154) ds.
Proof.
  intros Hl H. apply Forall_forall. intros d Hd. apply (In_nth _ _ []) in Hd as (k & Hk & <-).
  destruct (H (Z.of_nat k) ltac:(lia)) as (b & nl & E & F). rewrite Nat2Z.id in E. rewrite E. destruct (win_proper b (Z.of_nat k)) as [A B].
  exists (win_if b (Z.of_nat k)), [], nl. split; [reflexivity|]. split; [exact A|]. split; [cbn; lia|]. split; [exact B|]. split; [constructor|exact F].
Qed.

Definition formed (e0 : event) (h : list play) (s : rstate) : Prop :=
  Forall (half_ok e0) (s_half s) /\ (forall so, s_sobj s = Some so -> sob_ok e0 so) /\
  (consistent h -> Forall (fun x => half_player x = Z.of_nat (so_player (state_of x))) (s_half s) /\
     forall so, s_sobj s = Some so -> Z.of_nat (so_player so) = turn (-1) h).

Lemma discard_numbered L n s w t s' : wf s -> 0 <= w < 4 -> discard_step L n s (Z.to_nat w) t = Ok s' ->
  exists so ds, s_sobj s = Some so /\ s_sobj s' = Some so /\ s_half s' = PostTurn w so ds (ntokens s) :: DiscardTurn w so t (ntokens s) :: s_half s /\
    List.length ds = 4%nat /\ forall q, 0 <= q < 4 -> exists b nl, nth (Z.to_nat q) ds [] = [win_if b q; []; nl] /\ Forall (numbered post_action 154) nl.
Proof.
  intros W S H. destruct (ap_frame (PlDiscard w t) s) as (F1 & F2 & F3 & F4). assert (Ew : w = Z.of_nat (Z.to_nat w)) by lia.
  assert (Lh : List.length (s_ht (apply (PlDiscard w t) s)) = 4%nat) by (rewrite ap_ht, length_upd; apply W).
  apply discard_inv in H as (_ & so & acq & tok & rons & nakis & Eso & Ea & Et & Er & Em & _ & ->); [|lia|exact W].
  rewrite <- Ew in *. exists so. eexists. split; [exact Eso|]. split.
  { rewrite Eso in F4. revert F4. generalize (apply (PlDiscard w t) s). intros sa F4. destruct sa; exact F4. }
  split.
  { revert F1. generalize (apply (PlDiscard w t) s). intros sa F1. rewrite <- F1. destruct sa; reflexivity. }
  split; [reflexivity|]. intros q Hq. rewrite dec_lists_nth by lia.
  pose proof (rons_shape _ _ _ _ _ _ _ _ _ _ _ _ _ (Z.to_nat q) ltac:(lia) Er) as Rs. rewrite Z2Nat.id in Rs by lia.
  eexists (match nth (Z.to_nat q) rons None with Some _ => true | None => false end), _.
  split; [destruct Rs as [-> | ->]; reflexivity|].
  destruct (Nat.eqb (Z.to_nat q) (Z.to_nat w)); [constructor|].
  change (nth (Z.to_nat q) nakis []) with (offered nakis q).
  eapply mask_numbered in Em; [exact Em|exact Lh|lia| |lia].
  rewrite (proj1 (tix_hd t)). pose proof (tid_range t).
  assert (0 <= tid t / 4 < 34) by (split; [apply Z.div_pos; lia|apply Z.div_lt_upper_bound; lia]).
  rewrite Z2Nat.id by lia. assumption.
Qed.

Lemma draw_numbered L n s w t s' : wf s -> 0 <= w < 4 -> draw_step L n s (Z.to_nat w) t = Ok s' -> strip s' = strip (apply (PlDraw w t) s) ->
  (forall j, (j < 37)%nat -> vget (row (s_ht s') (Z.to_nat w)) j <= class_size j) -> Forall good_meld (row (s_melds s') (Z.to_nat w)) ->
  exists ip ds, List.length ip = 4%nat /\ let so := capture n (Z.to_nat w) (set_ippatsu ip (apply (PlDraw w t) s)) in
    s_sobj s' = Some so /\ s_half s' = DuringTurn w so ds (ntokens s) :: s_half s /\ proper during_action 71 ds.
Proof.
  intros W S E Es Hc Gm. assert (Ew : w = Z.of_nat (Z.to_nat w)) by lia.
  apply draw_inv in E as (_ & ag & re & ank & kak & H1 & H2 & Ha & Hk & Ed); [|lia|exact W].
  destruct (at_draw_fields w t s ltac:(lia)) as (_ & _ & _ & _ & _ & F1 & _ & _ & _ & F2 & F3 & _).
  rewrite F1, F3 in Hk. rewrite F2 in Ha. clear F1 F2 F3.
  apply strip_fields in Es as (G1 & G2 & _ & _ & _ & _ & _ & _ & _ & _ & _ & _ & _ & _ & G3 & _).
  rewrite <- G1, <- G3 in Hk. rewrite <- G2 in Ha. clear G1 G2 G3.
  apply evaluate_tsumo_ok in H1 as (q & b & _ & Eag & _). apply reach_cand_shape in H2. rewrite <- Ew in *. subst ag.
  pose proof (kans_numbered w _ _ _ ank kak (proj1 S) Hc Gm Ha Hk) as Nm. clear Ha Hk Hc Gm.
  unfold at_draw in Ed. rewrite <- Ew in Ed.
  exists (if truthy (vget (s_ippatsu s) (Z.to_nat w)) then vset (s_ippatsu s) (Z.to_nat w) 0 else s_ippatsu s), [win_if b w; re; ank ++ kak].
  split; [pose proof (wf_ippatsu s W); destruct (truthy _); [unfold vset; now rewrite length_upd|assumption]|]. cbv zeta.
  destruct (ap_frame (PlDraw w t) s) as (Fh & Ft & _).
  split; [|split].
  - apply (f_equal s_sobj) in Ed. refine (eq_trans Ed _). destruct (apply (PlDraw w t) s); reflexivity.
  - apply (f_equal s_half) in Ed. rewrite draw_half_of, Fh in Ed. exact Ed.
  - destruct (win_proper b w) as [A B]. exists (win_if b w), re, (ank ++ kak). split; [reflexivity|]. split; [exact A|].
    split; [destruct H2 as [-> | ->]; cbn; lia|]. split; [exact B|]. split; [|exact Nm]. destruct H2 as [-> | ->]; repeat constructor.
Qed.

Lemma formed_holds L go e0 evs n s pls : runs L go e0 evs n s pls -> formed e0 pls s.
Proof.
  revert evs s. revert pls. refine (fun pls evs s => runs_ind L go e0 n (formed e0) _ _ pls evs s).
  - intros s0 In0 _. destruct (in_rest _ _ In0) as (_ & _ & _ & _ & _ & _ & _ & _ & _ & H1 & H2 & _). unfold formed. rewrite H1, H2.
    split; [constructor|]. split; [discriminate|]. intros _. split; [constructor|discriminate].
  - clear pls evs s. intros evs evs' h a s s' R R' (I1 & I2 & I3) W S G E Es.
    pose proof (wf_apply a s W) as Wa. 
    pose proof (score_inv_holds _ _ _ _ _ _ _ R') as (Sc & _). rewrite (scores_strip _ _ Es) in Sc.
    assert (Cn : consistent (h ++ [a]) -> consistent h) by (intros C; eapply consistent_app; exact C).
    unfold formed. rewrite turn_app.
    destruct a as [w t|w t|w c|w|w|t].
    + cbn [seated astep] in S, E.
      destruct (hands_exact _ _ _ _ _ _ _ w R' S) as (hl & _ & _ & _ & _ & Hc & _).
      destruct (melds_inv_holds _ _ _ _ _ _ _ R' w S) as [_ Gm].
      destruct (draw_numbered _ _ _ _ _ _ W S E Es) as (ip & ds & Lip & Hd).
      { intros j Hj. destruct (Hc j Hj) as [Hv Hb]. unfold vec in Hv. rewrite Hv. exact (proj2 Hb). }
      { exact Gm. }
      cbv zeta in Hd. destruct Hd as (Eso & Eh & Pr).
      assert (So : sob_ok e0 (capture n (Z.to_nat w) (set_ippatsu ip (apply (PlDraw w t) s)))).
      { eapply capture_ok; [exact R|apply wf_set_ippatsu; assumption|lia|]. revert Sc. generalize (apply (PlDraw w t) s). intros sa Sc. destruct sa; exact Sc. }
      remember (capture n (Z.to_nat w) (set_ippatsu ip (apply (PlDraw w t) s))) as so eqn:Ec. rewrite Eso, Eh.
      assert (Pp : so_player so = Z.to_nat w) by (rewrite Ec; reflexivity). clear Ec.
      split; [constructor; [split; [exact Pr|split; [exact So|exact I]]|exact I1]|].
      split; [intros so' Q; injection Q as <-; exact So|]. intros C. destruct (I3 (Cn C)) as [J1 J2].
      split; [constructor; [cbn [half_player state_of]; lia|exact J1]|]. intros so' Q. injection Q as <-. cbn [turn]. lia.
    + cbn [seated astep] in S, E. destruct (discard_numbered _ _ _ _ _ _ W S E) as (so & ds & Es0 & Eso & Eh & Ld & Hd).
      pose proof (I2 so Es0) as So. rewrite Eso, Eh. destruct G as (_ & _ & Ht & _).
      split; [constructor; [split; [split; [exact S|split; [exact Ld|now apply ds_of_calls]]|split; [exact So|exact I]]|constructor; [split; [exact I|split; [exact So|exact Ht]]|exact I1]]|].
      split; [intros so' Q; injection Q as <-; exact So|]. intros C. destruct (I3 (Cn C)) as [J1 J2]. specialize (J2 so Es0).
      unfold consistent in C. apply in_turn_app in C as [_ C]. cbn [in_turn] in C. destruct C as [C _]. 
      split; [constructor; [cbn [half_player state_of]; congruence|constructor; [cbn [half_player state_of]; congruence|exact J1]]|].
      intros so' Q. injection Q as <-. exact J2.
    + pose proof E as E1. apply astep_labels in E1; [|assumption..]. destruct E1 as (nk & hs & En & Ehs & E1).
      pose proof E as E2. cbn [astep] in E2. apply bind_ok in E2 as (u & _ & E2). apply bind_ok in E2 as (nk' & En' & E2).
      apply (call_inv L n s w c nk' s' W En') in E2 as ((Hw & _) & tok & _ & E2). cbv zeta in E2. destruct E2 as (hs' & E2 & _).
      assert (Eso : s_sobj s' = Some (capture n (Z.to_nat w) (at_call w c s))) by (rewrite E2; reflexivity). clear E2.
      assert (So : sob_ok e0 (capture n (Z.to_nat w) (at_call w c s))).
      { eapply capture_ok; [exact R|unfold at_call; apply wf_set_ippatsu; [assumption|now apply wf_ippatsu]|lia|]. unfold at_call. revert Sc. generalize (apply (PlCall w c) s). intros sa Sc. destruct sa; exact Sc. }
      apply astep_half in E; [|assumption..]. destruct E as (so & hs2 & tok2 & _ & [_ Mk] & Ek & Eso2 & _).
      rewrite Eso in Eso2. injection Eso2 as <-.
      remember (capture n (Z.to_nat w) (at_call w c s)) as so eqn:Ec.
      assert (Pp : so_player so = Z.to_nat w) by (rewrite Ec; reflexivity). clear Ec. rewrite Eso.
      assert (Fh : Forall (half_ok e0) hs).
      { rewrite Ehs. destruct (is_ankan c || is_kakan c); [apply marked_ok; [|exact I1]|apply marked_post_ok; exact I1].
        intros ds. apply mark_calls. intros d i. apply set_executed_action. }
      assert (Fp : consistent h -> Forall (fun x => half_player x = Z.of_nat (so_player (state_of x))) hs).
      { intros C. destruct (I3 C) as [J1 _]. rewrite Ehs. destruct (is_ankan c || is_kakan c).
        - destruct J1 as [|x l Hx J1]; [constructor|]. destruct x; cbn [upd_during]; constructor; assumption.
        - destruct J1 as [|x l Hx J1]; [constructor|]. destruct x; cbn [upd_post]; constructor; assumption. }
      destruct (is_kakan c).
      * destruct E1 as (so1 & ds & Eh & Ld & Hd). destruct Ek as (ds1 & Ek). rewrite Eh in Ek |- *. injection Ek as -> _ _.
        split; [constructor; [|exact Fh]|].
        { split; [|split; [exact So|exact I]]. split; [exact Hw|]. split; [exact Ld|]. apply ds_of_calls; [exact Ld|].
          intros q Hq. destruct (Hd q Hq) as (b & Eb). exists b, []. split; [exact Eb|constructor]. }
        split; [intros so' Q; injection Q as <-; exact So|]. intros C. split; [constructor; [cbn [half_player state_of]; lia|exact (Fp (Cn C))]|].
        intros so' Q. injection Q as <-. cbn [turn]. lia.
      * rewrite E1. split; [exact Fh|]. split; [intros so' Q; injection Q as <-; exact So|]. intros C. split; [exact (Fp (Cn C))|].
        intros so' Q. injection Q as <-. cbn [turn]. lia.
    + pose proof (astep_labels _ _ _ _ _ W S E) as Eh. apply astep_half in E; [|assumption..]. destruct E as (_ & -> & _). cbn [turn].
      split; [rewrite Eh; apply marked_ok; [apply mark_riichi|exact I1]|]. split; [exact I2|]. intros C. destruct (I3 (Cn C)) as [J1 J2]. split; [|exact J2].
      rewrite Eh. destruct J1 as [|x l Hx J1]; [constructor|]. destruct x; cbn [upd_during]; constructor; assumption.
    + pose proof (astep_labels _ _ _ _ _ W S E) as Eh. apply astep_half in E; [|assumption..]. destruct E as (_ & -> & _). cbn [turn]. cbn beta iota in Eh. rewrite Eh. auto.
    + pose proof (astep_labels _ _ _ _ _ W S E) as Eh. apply astep_half in E; [|assumption..]. destruct E as (_ & -> & _). cbn [turn]. cbn beta iota in Eh. rewrite Eh. auto.
Qed.

(** ** Every accepted round can be turned into samples *)
Lemma split_unique (P : event -> Prop) (a b c d : list event) : Forall (fun e => ~ P e) a -> Forall P b -> Forall (fun e => ~ P e) c -> Forall P d ->
  a ++ b = c ++ d -> a = c /\ b = d.
Proof.
  revert c. induction a as [|x a IH]; intros c Fa Fb Fc Fd E.
  - destruct c as [|y c]; [auto|]. exfalso. cbn in E. subst b. inversion Fb; inversion Fc; contradiction.
  - destruct c as [|y c].
    + exfalso. cbn in E. subst d. inversion Fa; inversion Fd; contradiction.
    + injection E as -> E. destruct (IH c) as [-> ->]; inversion Fa; inversion Fc; auto.
Qed.
Lemma map_some_inj {A} (a b : list A) : map Some a = map Some b -> a = b.
Proof. revert b. induction a as [|x a IH]; intros [|y b]; cbn; try discriminate; [reflexivity|]. intros H. injection H as -> H. f_equal. auto. Qed.

Lemma round_runs L go e0 rest half tokens pls : process_round L go (e0 :: rest) = Ok (half, tokens) -> plays_of_round (e0 :: rest) pls ->
  exists plays n s, runs L go e0 plays n s pls /\ half = map (map_half (observe s)) (rev (s_half s)) /\ tokens = s_tokens s /\ (forall k, 0 <= vget (s_rem s) k).
Proof.
  intros H (e0' & pl & re & E & Fp & Fr & P). apply accepted_round in H as (e1 & plays & results & n & s & pls' & E' & _ & _ & Fr' & Fp' & R & Eh & Et & Nr & _).
  injection E as <- E. injection E' as <- E'. rewrite E in E'. destruct (split_unique result_event _ _ _ _ Fp Fr Fp' Fr' E') as [-> ->].
  exists plays, n, s. pose proof R as (s0 & _ & _ & P'). rewrite P in P'. apply map_some_inj in P'. subst pls'. auto.
Qed.

(** ** Every accepted round can be turned into samples *)
Lemma accepted_formed L go e0 rest half tokens pls : process_round L go (e0 :: rest) = Ok (half, tokens) -> plays_of_round (e0 :: rest) pls ->
  Forall well_formed half /\ Forall (fun h => 0 <= index_of h) half /\ (consistent pls -> Forall (fun h => half_player h = Z.of_nat (so_player (sv_obj (state_of h)))) half).
Proof.
  intros H P. destruct (round_runs _ _ _ _ _ _ _ H P) as (plays & n & s & R & -> & -> & _).
  destruct (formed_holds _ _ _ _ _ _ _ R) as (F & _ & C). apply Forall_rev in F.
  destruct (nondecreasing_idx _ _ _ _ _ _ _ R) as [I _]. apply Forall_rev in I.
  split; [|split].
  - apply Forall_map. eapply Forall_impl; [|exact F]. intros h (W & _). destruct h; exact W.
  - apply Forall_map. eapply Forall_impl; [|exact I]. intros h [W _]. destruct h; exact W.
  - intros Co. destruct (C Co) as [C1 _]. apply Forall_rev in C1. apply Forall_map. eapply Forall_impl; [|exact C1]. intros h W. destruct h; exact W.
Qed.

Lemma accepted_buildable L go e0 rest half tokens pls : process_round L go (e0 :: rest) = Ok (half, tokens) -> plays_of_round (e0 :: rest) pls ->
  orderly pls -> List.length (initial_scores e0) = 4%nat -> Forall buildable half.
Proof.
  intros H P (Co & Un & St) Hs. destruct (round_runs _ _ _ _ _ _ _ H P) as (plays & n & s & R & -> & -> & Nr). clear H P.
  destruct (formed_holds _ _ _ _ _ _ _ R) as (F & _ & _). apply Forall_rev in F.
  destruct (nondecreasing_idx _ _ _ _ _ _ _ R) as [I _]. apply Forall_rev in I.
  pose proof (token_bound _ _ _ _ _ _ _ R (fun k _ => Nr k)) as B. apply (sticks_total _ _ _ _ _ _ _ R) in St.
  assert (Wf : wf s) by exact (proj2 (runs_inv_full L go e0 plays n s pls (fun _ _ => True) R (fun _ _ _ => Logic.I) (fun _ _ _ _ _ _ _ _ _ _ => Logic.I))).
  pose proof (fun p Hp => hand_nonempty _ _ _ _ _ _ _ p R Co Un Hp) as Ne.
  apply Forall_map. rewrite Forall_forall in *. intros h Hh. specialize (F h Hh). specialize (I h Hh). destruct F as (W & So & T).
  unfold buildable. destruct (half_state s h) as (E1 & E2 & _). rewrite E2.
  split; [destruct h; exact W|]. split; [unfold ntokens in I; lia|]. split.
  - unfold sizes_ok. rewrite E1. cbv zeta. destruct So as (S1 & S2 & S3 & S4 & S5 & S6 & S7 & S8 & _). rewrite Hs in S3.
    repeat (split; [assumption|]). destruct h; apply Wf.
  - destruct h as [|p so t i|]; [exact Logic.I| |exact Logic.I]. cbn [map_half state_of] in *. split; [exact T|].
    destruct So as (_ & Sp & _). destruct (Ne (Z.of_nat (so_player so)) ltac:(lia)) as (c & Hc & Nc). exists c. split; [|exact Nc].
    unfold vec in Hc. rewrite Nat2Z.id in Hc. exact Hc.
Qed.
