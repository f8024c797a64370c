(** Assembling the invariants into the statements of PropsRound.v. *)
From Coq Require Import ZArith List Bool String Ascii Lia PeanoNat Permutation.
From Verif Require Import Base Constants Naki Decision Tokens GameInfo Agari Process VecLemmas
  SpecMeld SpecTokens SpecRound RoundLemmas RoundInv RoundTiles RoundInit RoundBook RoundFlags RoundSplit RoundHalf.
Import ListNotations.
Open Scope Z_scope.

Lemma class_count k : (k < 37)%nat -> Z.of_nat (List.length (filter (in_class k) (map Z.of_nat (seq 0 136)))) = class_size k.
Proof. intros H. do 37 (destruct k as [|k]; [vm_compute; reflexivity|]). lia. Qed.
Lemma num_bound k l : (k < 37)%nat -> NoDup l -> Forall (fun x => 0 <= x < 136) l -> 0 <= num k l <= class_size k.
Proof.
  intros Hk N F. split; [apply num_nonneg|]. rewrite <- class_count by assumption. unfold num. apply inj_le.
  apply NoDup_incl_length; [now apply NoDup_filter|]. intros x Hx. apply filter_In in Hx as [Hx Hc]. apply filter_In. split; [|exact Hc].
  rewrite Forall_forall in F. specialize (F x Hx). apply in_map_iff. exists (Z.to_nat x). split; [lia|]. apply in_seq. lia.
Qed.

Lemma hands_exact L go e0 evs n s pls p : runs L go e0 evs n s pls -> 0 <= p < 4 -> exists hl,
  NoDup hl /\ Forall (fun x => 0 <= x < 136) hl /\
  Permutation (dealt e0 (Z.to_nat p) ++ drawn p pls) (discarded p pls ++ shown p pls ++ hl) /\
  (forall x, 0 <= x < 136 -> (In x hl -> vget (vec (s_hands s) p) (Z.to_nat x) = 1) /\ (~ In x hl -> vget (vec (s_hands s) p) (Z.to_nat x) = 0)) /\
  (forall k, (k < 37)%nat -> vget (vec (s_ht s) p) k = num k hl /\ 0 <= num k hl <= class_size k) /\
  (forall k, (k < 37)%nat -> vget (vec (s_htf s) p) k = num k (hl ++ shown p pls ++ claimed p pls)).
Proof.
  intros R Hp. destruct (hand_inv_holds _ _ _ _ _ _ _ R (Z.to_nat p) ltac:(lia)) as (hl & Hh & P & Hv).
  rewrite Z2Nat.id in * by lia. exists hl. pose proof Hh as (Lh & Nh & Fh & Vh).
  split; [exact Nh|]. split; [exact Fh|]. split; [exact P|]. unfold vec. split; [|split].
  - exact Vh.
  - intros k Hk. destruct (Hv k Hk) as [A _]. split; [exact A|]. now apply num_bound.
  - intros k Hk. destruct (Hv k Hk) as [_ B]. rewrite B, !num_app. lia.
Qed.

(** What an accepted round says about each point inside it. *)
Lemma accepted_points L go evs half tokens : process_round L go evs = Ok (half, tokens) ->
  exists e0 plays results n s pls, evs = e0 :: plays ++ results /\ runs L go e0 plays n s pls /\
   (half = map (map_half (observe s)) (rev (s_half s)) /\ tokens = s_tokens s) /\
   forall plays1 plays2, plays = plays1 ++ plays2 -> exists s1 pls1 pls2,
     runs L go e0 plays1 n s1 pls1 /\ pls = pls1 ++ pls2 /\
     (forall k, (k < 37)%nat -> 0 <= vget (s_rem s1) k) /\
     (forall p k, 0 <= p < 4 -> (k < 37)%nat -> 0 <= vget (vec (s_pov s1) p) k).
Proof.
  intros H. apply accepted_round in H as (e0 & plays & results & n & s & pls & -> & _ & _ & _ & _ & R & Eh & Et & Nr & Np).
  exists e0, plays, results, n, s, pls. split; [reflexivity|]. split; [exact R|]. split; [auto|].
  intros plays1 plays2 ->. destruct (runs_prefix _ _ _ _ _ _ _ _ R) as (s1 & pls1 & pls2 & R1 & -> & _ & _).
  exists s1, pls1, pls2. split; [exact R1|]. split; [reflexivity|]. split.
  - intros k Hk. destruct (seen_mono _ _ _ _ _ _ _ _ _ _ R1 R k Hk) as [A _]. specialize (Nr k). lia.
  - intros p k Hp Hk. destruct (seen_mono _ _ _ _ _ _ _ _ _ _ R1 R k Hk) as [_ B]. specialize (B (Z.to_nat p) ltac:(lia)). specialize (Np (Z.to_nat p) k). unfold vec. lia.
Qed.

Lemma half_state (s : rstate) (h : halfturn sobj) : sv_obj (state_of (map_half (observe s) h)) = state_of h /\ index_of (map_half (observe s) h) = index_of h /\
  shape_of (map_half (observe s) h) = shape_of h.
Proof. destruct h; repeat split. Qed.

Lemma snapshot_fields n p s so : snapshot n p s so ->
  so_scores so = s_scores s /\ so_kyotaku so = s_kyotaku s /\ so_sutehai so = s_sute s /\ so_reaches so = s_reaches s /\
  so_double_reaches so = s_dreaches s /\ so_remaining_tsumo so = s_rtsumo s /\ so_remaining_turns so = s_rtsumo s /\ so_dora so = s_doras s /\
  so_honba so = n_honba n /\ so_parent_tensor so = n_parent_tensor n /\ so_rounds_remaining so = n_rounds_remaining n /\
  so_parent_rounds_remaining so = n_parent_rounds_remaining n /\ so_player so = p.
Proof. intros (ip & ->). repeat split. Qed.

(** The recorded state objects, in the output of an accepted round. *)
Lemma accepted_states L go evs half tokens : process_round L go evs = Ok (half, tokens) ->
  exists e0 plays results n s pls, evs = e0 :: plays ++ results /\ runs L go e0 plays n s pls /\ tokens = s_tokens s /\
  map shape_of half = shapes 0 pls /\
  Forall2 (fun m h => exists s1, runs L go e0 (firstn m plays) n s1 (firstn m pls) /\
     let so := sv_obj (state_of h) in
     so_scores so = s_scores s1 /\ so_kyotaku so = s_kyotaku s1 /\ so_sutehai so = s_sute s1 /\ so_reaches so = s_reaches s1 /\
     so_double_reaches so = s_dreaches s1 /\ so_remaining_tsumo so = s_rtsumo s1 /\ so_remaining_turns so = s_rtsumo s1 /\ so_dora so = s_doras s1 /\
     so_honba so = n_honba n /\ so_parent_tensor so = n_parent_tensor n /\ so_rounds_remaining so = n_rounds_remaining n /\
     so_parent_rounds_remaining so = n_parent_rounds_remaining n)
    (moments 0 0 pls) half /\
  Forall (fun h => exists p, (sv_hand (state_of h) = row (s_ht s) p /\ sv_pov (state_of h) = row (s_pov s) p /\ so_player (sv_obj (state_of h)) = p) /\
     sv_remaining (state_of h) = s_rem s /\ sv_menzen (state_of h) = s_menzen s /\ sv_melds (state_of h) = s_melds s) half.
Proof.
  intros H. apply accepted_round in H as (e0 & plays & results & n & s & pls & -> & _ & _ & _ & _ & R & -> & -> & _ & _).
  exists e0, plays, results, n, s, pls. split; [reflexivity|]. split; [exact R|]. split; [reflexivity|]. split; [|split].
  - destruct (half_inv_holds _ _ _ _ _ _ _ R) as [_ E]. rewrite <- E, map_map. apply map_ext. intros h. apply half_state.
  - pose proof (recorded_states _ _ _ _ _ _ _ R) as F. revert F. generalize (rev (s_half s)). intros l F.
    induction F as [|m h ms hs (s1 & p & R1 & Q) _ IH]; cbn [map]; constructor; [|exact IH].
    exists s1. split; [exact R1|]. cbv zeta. rewrite (proj1 (half_state s h)). apply snapshot_fields in Q. tauto.
  - apply Forall_forall. intros h Hh. apply in_map_iff in Hh as (h0 & <- & _). exists (so_player (state_of h0)).
    destruct h0; repeat split.
Qed.

Lemma scores_recorded L go e0 rest half tokens : process_round L go (e0 :: rest) = Ok (half, tokens) ->
  Forall (fun h => let so := sv_obj (state_of h) in
    vsum (so_scores so) + 10 * so_kyotaku so = vsum (initial_scores e0) + 10 * initial_sticks e0) half.
Proof.
  intros H. apply accepted_states in H as (e0' & plays & results & n & s & pls & E & R & _ & _ & F & _). injection E as <- _.
  induction F as [|m h ms hs (s1 & R1 & A & B & _) _ IH]; constructor; [|exact IH]. cbv zeta. rewrite A, B.
  apply score_inv_holds in R1 as (_ & _ & _ & Q). exact Q.
Qed.

Lemma nondecreasing_idx L go e0 evs n s pls : runs L go e0 evs n s pls ->
  Forall (fun h => 0 <= index_of h <= ntokens s) (s_half s) /\ nondecreasing (map index_of (rev (s_half s))).
Proof.
  intros R. destruct (half_inv_holds _ _ _ _ _ _ _ R) as [T E].
  assert (X : forall h : halfturn sobj, index_of h = shape_idx (shape_of h)) by (intros []; reflexivity).
  split.
  - rewrite (token_len _ _ T). 
    assert (F : Forall (fun h => 0 <= index_of h <= npub pls) (rev (s_half s))).
    { pose proof (shapes_bounds pls 0) as B. rewrite <- E in B. rewrite Forall_map in B. eapply Forall_impl; [|exact B].
      cbv beta. intros h Hh. rewrite X. lia. }
    rewrite Forall_forall in *. intros h Hh. apply F. rewrite <- in_rev. exact Hh.
  - erewrite map_ext; [|exact X]. rewrite <- map_map, E. apply shapes_sorted.
Qed.

Lemma no_future L go e0 evs1 evs2 n s1 s2 pls1 pls2 :
  runs L go e0 evs1 n s1 pls1 -> runs L go e0 (evs1 ++ evs2) n s2 pls2 ->
  Forall (fun h => 0 <= index_of h <= Z.of_nat (List.length (s_tokens s1))) (s_half s1) /\
  (exists later, map shape_of (rev (s_half s2)) = map shape_of (rev (s_half s1)) ++ later) /\
  (exists later, s_tokens s2 = s_tokens s1 ++ later).
Proof.
  intros R1 R2. split; [apply nondecreasing_idx in R1; apply R1|].
  destruct (runs_prefix _ _ _ _ _ _ _ _ R2) as (s1' & pls1' & pls3 & R1' & -> & _ & _).
  assert (E : s1' = s1 /\ pls1' = pls1).
  { destruct R1 as (s0 & E0 & E1 & P1), R1' as (s0' & E0' & E1' & P1'). rewrite E0 in E0'. injection E0' as <-.
    rewrite E1 in E1'. injection E1' as <-. split; [reflexivity|]. rewrite P1 in P1'. clear - P1'. revert pls1' P1'.
    induction pls1 as [|a l IH]; intros [|b l'] H; try discriminate; [reflexivity|]. cbn in H. injection H as <- H. f_equal. now apply IH. }
  destruct E as [-> ->]. destruct (half_inv_holds _ _ _ _ _ _ _ R1) as [[_ T1] H1]. destruct (half_inv_holds _ _ _ _ _ _ _ R2) as [[_ T2] H2].
  split.
  - rewrite H1, H2, shapes_app. eauto.
  - rewrite public_app in T2. apply Forall2_app_inv_l in T2 as (l1 & l2 & A & _ & ->). exists l2. f_equal.
    clear - T1 A. revert T1 A. generalize (s_tokens s1). revert l1. generalize (public None pls1). intros l l1 l2 A. revert l1.
    induction A as [|x y l l2 Hx _ IH]; intros l1 B; inversion B; subst; [reflexivity|]. f_equal; [congruence|auto].
Qed.

Lemma num_pos k l : 0 < num k l <-> exists x, In x l /\ in_class k x = true.
Proof.
  unfold num. split.
  - intros H. destruct (filter (in_class k) l) as [|x r] eqn:E; [cbn in H; lia|]. exists x. apply filter_In. rewrite E. now left.
  - intros (x & I & C). assert (In x (filter (in_class k) l)) by (now apply filter_In). destruct (filter (in_class k) l); [contradiction|cbn [List.length]; lia].
Qed.
Lemma sticks_pos p pls : 0 < sticks p pls <-> In (PlReach2 p) pls.
Proof.
  unfold sticks. split.
  - intros H. destruct (filter _ pls) as [|x r] eqn:E; [cbn in H; lia|]. assert (I : In x (x :: r)) by now left. rewrite <- E in I.
    apply filter_In in I as [I C]. destruct x; try discriminate C. apply Z.eqb_eq in C. now subst.
  - intros I. match goal with |- context[filter ?f pls] => assert (J : In (PlReach2 p) (filter f pls)) by (apply filter_In; split; [exact I|apply Z.eqb_refl]); destruct (filter f pls) end; [contradiction|cbn [List.length]; lia].
Qed.

Lemma flags_exact L go e0 evs n s pls p : runs L go e0 evs n s pls -> 0 <= p < 4 ->
  (flag (s_reaches s) p = 1 <-> In (PlReach2 p) pls) /\ (flag (s_reaches s) p = 0 <-> ~ In (PlReach2 p) pls) /\
  (flag (s_dreaches s) p = 0 \/ flag (s_dreaches s) p = 1) /\
  (flag (s_dreaches s) p = 1 -> flag (s_reaches s) p = 1) /\
  (flag (s_menzen s) p = 0 <-> opened p pls) /\ (flag (s_menzen s) p = 1 <-> ~ opened p pls) /\
  forall k, (k < 37)%nat ->
    (vget (vec (s_sute s) p) k = 1 <-> exists x, In x (discarded p pls) /\ in_class k x = true) /\
    (vget (vec (s_sute s) p) k = 0 <-> ~ exists x, In x (discarded p pls) /\ in_class k x = true).
Proof.
  intros R Hp. destruct (flag_inv_holds _ _ _ _ _ _ _ R (Z.to_nat p) ltac:(lia)) as (A & B & C & D).
  rewrite Z2Nat.id in * by lia. unfold flag, vec, yes in *. rewrite <- sticks_pos.
  split; [|split; [|split; [|split; [|split; [|split]]]]].
  - rewrite A. destruct (Z.ltb_spec 0 (sticks p pls)); split; lia.
  - rewrite A. destruct (Z.ltb_spec 0 (sticks p pls)); split; lia.
  - tauto.
  - intros E. destruct B as [B|[_ B]]; [lia|]. rewrite A. destruct (Z.ltb_spec 0 (sticks p pls)); lia.
  - destruct C as [[C1 C2]|[C1 C2]]; rewrite C1; split; intros; try lia; tauto.
  - destruct C as [[C1 C2]|[C1 C2]]; rewrite C1; split; intros; try lia; tauto.
  - intros k Hk. rewrite (D k Hk), <- num_pos. destruct (Z.ltb_spec 0 (num k (discarded p pls))); split; split; lia.
Qed.
