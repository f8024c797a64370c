(** C19-C32: from a log to rounds, and what is recorded for a round.  Statements
    only; proofs are in RoundSplit.v, RoundBook.v, RoundFlags.v, RoundHalf.v and
    RoundFacts.v.

    [runs L go e0 evs n s pls] (SpecRound.v): starting from the INIT event [e0] the
    event loop has processed [evs] without raising and its variables are [s]; [pls]
    are the plays the log says these events are.  The theorems below quantify over
    every such run, hence over every point inside every accepted round (C21). *)
From Coq Require Import ZArith List Bool String Lia Permutation.
From Verif Require Import Base Constants Naki Decision GameInfo Agari Process SpecMeld SpecTokens SpecRound
  RoundExamples RoundBook RoundFlags RoundSplit RoundHalf RoundFacts.
Import ListNotations.
Open Scope Z_scope.

(** The initial variables, and the variables after the first [m] events, of an example round. *)
Definition ex_env (r : list event) : option renv :=
  match r with e0 :: _ => match init_round 169 e0 with Ok (n, _) => Some n | _ => None end | [] => None end.
Definition ex_after (r : list event) (m : nat) : option rstate :=
  match r with e0 :: evs => match init_round 169 e0 with
    | Ok (n, s0) => match foldM (step ex_libs n) s0 (firstn m evs) with Ok s => Some s | Err _ => None end
    | _ => None end | [] => None end.
Definition ex_plays (r : list event) (m : nat) : list (option play) := map play_of (firstn m (tl r)).

(** C19 *)
Theorem C19_only_supported : forall L root out, process L root = Ok out ->
  exists go, log_type root go /\ supported go /\ Forall (fun e => e_tag e <> "BYE"%string) (traverse root).
Proof.
  intros L root out H. apply process_ok in H as (go & rs & H & S & _). exists go.
  pose proof (get_rounds_ok _ _ _ H) as [T G]. split; [exact T|]. split; [exact S|].
  apply Forall_forall. intros e He Hb. now apply (group_bye _ None rs e He Hb).
Qed.
Print Assumptions C19_only_supported.
Theorem C19_unsupported_rejected : forall L root go rs, get_rounds root = Ok (go, rs) -> ~ supported go ->
  process L root = Err InvalidGameException.
Proof. exact process_unsupported. Qed.
Print Assumptions C19_unsupported_rejected.
Theorem C19_bye_rejected : forall evs cur, (exists e, In e evs /\ e_tag e = "BYE"%string) -> cur <> None ->
  group evs cur = Err InvalidGameException.
Proof. exact group_bye_invalid. Qed.
Print Assumptions C19_bye_rejected.
Definition small_log (go : string) : elem :=
  Elem "mjloggm" [] (Elem "GO" [("type"%string, go)] [] :: map (fun e => Elem (e_tag e) (e_attr e) []) small_round).
Example C19_example : (exists out, process ex_libs (small_log "169") = Ok out) /\ supported 169 /\
  process ex_libs (small_log "185") = Err InvalidGameException /\ ~ supported 185.
Proof.
  split; [eexists; vm_compute; reflexivity|]. split; [repeat split; vm_compute; reflexivity|].
  split; [vm_compute; reflexivity|]. intros (_ & _ & _ & H). vm_compute in H. discriminate.
Qed.

(** C20 *)
Theorem C20_partition : forall root go rs, get_rounds root = Ok (go, rs) ->
  List.concat rs = filter (fun e => negb (skipped_tag (e_tag e))) (traverse root) /\ Forall one_round rs.
Proof. exact rounds_partition. Qed.
Print Assumptions C20_partition.
Theorem C20_header_tags : forall t, skipped_tag t = true <-> header_tag t.
Proof. exact skipped_header. Qed.
Print Assumptions C20_header_tags.
(** Every round is converted, in order. *)
Theorem C20_all_converted : forall L root half tokens, process L root = Ok (half, tokens) ->
  exists go rs, get_rounds root = Ok (go, rs) /\ mapM (process_round L go) rs = Ok (combine half tokens) /\
    List.length half = List.length rs /\ List.length tokens = List.length rs.
Proof. intros L root half tokens H. apply process_ok in H as (go & rs & A & _ & B). exists go, rs. auto. Qed.
Print Assumptions C20_all_converted.
Example C20_example : exists go rs, get_rounds (small_log "169") = Ok (go, rs) /\ List.length rs = 1%nat /\ map (@List.length event) rs = [24%nat].
Proof. eexists _, _. split; [vm_compute; reflexivity|]. split; vm_compute; reflexivity. Qed.

(** C21 *)
Theorem C21_complete : forall L go evs half tokens, process_round L go evs = Ok (half, tokens) ->
  exists e0 plays results n s pls, evs = e0 :: plays ++ results /\ e_tag e0 = "INIT"%string /\
    results <> [] /\ Forall result_event results /\ Forall (fun e => ~ result_event e) plays /\
    runs L go e0 plays n s pls /\
    half = map (map_half (observe s)) (rev (s_half s)) /\ tokens = s_tokens s.
Proof.
  intros L go evs half tokens H. apply accepted_round in H as (e0 & pl & re & n & s & pls & A & B & C & D & E & F & G & K & _).
  exists e0, pl, re, n, s, pls. repeat (split; [assumption|]). assumption.
Qed.
Print Assumptions C21_complete.
(** Every point inside an accepted round is a run. *)
Theorem C21_points : forall L go e0 evs1 evs2 n s pls, runs L go e0 (evs1 ++ evs2) n s pls ->
  exists s1 pls1 pls2, runs L go e0 evs1 n s1 pls1 /\ pls = pls1 ++ pls2.
Proof. intros L go e0 evs1 evs2 n s pls H. apply runs_prefix in H as (s1 & p1 & p2 & A & B & _). eauto. Qed.
Print Assumptions C21_points.
Example C21_example : (exists out, process_round ex_libs 169 small_round = Ok out) /\
  (exists half tokens, process_round ex_libs 169 real_round = Ok (half, tokens) /\ List.length half = 95%nat /\ List.length tokens = 39%nat).
Proof. split; [eexists; vm_compute; reflexivity|]. eexists _, _. split; [vm_compute; reflexivity|]. split; vm_compute; reflexivity. Qed.

(** C22.  [hl] are the tiles the player holds. *)
Theorem C22_hands : forall L go e0 evs n s pls p, runs L go e0 evs n s pls -> 0 <= p < 4 ->
  exists hl, NoDup hl /\ Forall (fun x => 0 <= x < 136) hl /\
    Permutation (dealt e0 (Z.to_nat p) ++ drawn p pls) (discarded p pls ++ shown p pls ++ hl) /\
    (forall x, 0 <= x < 136 -> (In x hl -> vget (vec (s_hands s) p) (Z.to_nat x) = 1) /\
                               (~ In x hl -> vget (vec (s_hands s) p) (Z.to_nat x) = 0)) /\
    (forall k, (k < 37)%nat -> vget (vec (s_ht s) p) k = num k hl /\ 0 <= num k hl <= class_size k).
Proof.
  intros L go e0 evs n s pls p R Hp. destruct (hands_exact _ _ _ _ _ _ _ _ R Hp) as (hl & A & B & C & D & E & _).
  exists hl. auto.
Qed.
Print Assumptions C22_hands.
Example C22_example : exists n s pls, runs ex_libs 169 (hd (MkEvent "" []) small_round) (firstn 22 (tl small_round)) n s pls /\
  discarded 0 pls = [110; 126] /\ shown 0 pls = [0; 1; 2; 3] /\ vget (vec (s_ht s) 0) 4 = 1 /\ vget (vec (s_ht s) 0) 34 = 1 /\ vget (vec (s_ht s) 0) 0 = 0.
Proof.
  eexists _, _, _. split; [eexists; split; [vm_compute; reflexivity|]; split; [vm_compute; reflexivity|]|].
  - instantiate (1 := ltac:(let l := eval vm_compute in (flat_map (fun o => match o with Some a => [a] | None => [] end) (ex_plays small_round 22)) in exact l)).
    vm_compute. reflexivity.
  - repeat split; vm_compute; reflexivity.
Qed.

(** C23 *)
Theorem C23_owned : forall L go e0 evs n s pls p, runs L go e0 evs n s pls -> 0 <= p < 4 ->
  exists hl, Permutation (dealt e0 (Z.to_nat p) ++ drawn p pls) (discarded p pls ++ shown p pls ++ hl) /\
    forall k, (k < 37)%nat -> vget (vec (s_htf s) p) k = num k (hl ++ shown p pls ++ claimed p pls).
Proof.
  intros L go e0 evs n s pls p R Hp. destruct (hands_exact _ _ _ _ _ _ _ _ R Hp) as (hl & _ & _ & C & _ & _ & E).
  exists hl. auto.
Qed.
Print Assumptions C23_owned.
Example C23_example : option_map (fun s => (vget (vec (s_htf s) 1) 27, vget (vec (s_ht s) 1) 27, vget (vec (s_htf s) 0) 0)) (ex_after small_round 22) = Some (4, 0, 4).
Proof. vm_compute. reflexivity. Qed.

(** C24.  Tile types [k < 34]; the red-five components (34-36) do not count new indicators. *)
Theorem C24_wall : forall L go e0 evs n s pls k, runs L go e0 evs n s pls -> (k < 34)%nat ->
  vget (s_rem s) k = 4 - num k (all_dealt e0) - num k (all_drawn pls) - num k (first_indicator e0 :: indicators pls).
Proof.
  intros L go e0 evs n s pls k R Hk. destruct (seen_inv_holds _ _ _ _ _ _ _ R k ltac:(lia)) as [-> _].
  unfold class_size. apply Nat.ltb_lt in Hk. rewrite Hk. rewrite (RoundTiles.num_cons k (first_indicator e0) (indicators pls)). lia.
Qed.
Print Assumptions C24_wall.
Theorem C24_wall_red : forall L go e0 evs n s pls k, runs L go e0 evs n s pls -> (34 <= k < 37)%nat ->
  vget (s_rem s) k = 1 - num k (all_dealt e0) - num k (all_drawn pls) - num k [first_indicator e0].
Proof.
  intros L go e0 evs n s pls k R Hk. destruct (seen_inv_holds _ _ _ _ _ _ _ R k ltac:(lia)) as [-> _].
  unfold class_size. destruct (Nat.ltb_spec k 34); lia.
Qed.
Print Assumptions C24_wall_red.
(** At no point of an accepted round is a count negative. *)
Theorem C24_never_negative : forall L go evs half tokens, process_round L go evs = Ok (half, tokens) ->
  exists e0 plays results n, evs = e0 :: plays ++ results /\
  forall plays1 plays2, plays = plays1 ++ plays2 -> exists s1 pls1, runs L go e0 plays1 n s1 pls1 /\
     (forall k, (k < 37)%nat -> 0 <= vget (s_rem s1) k) /\
     (forall p k, 0 <= p < 4 -> (k < 37)%nat -> 0 <= vget (vec (s_pov s1) p) k).
Proof.
  intros L go evs half tokens H. apply accepted_points in H as (e0 & pl & re & n & s & pls & A & _ & _ & B).
  exists e0, pl, re, n. split; [exact A|]. intros p1 p2 E. destruct (B p1 p2 E) as (s1 & q1 & q2 & R & _ & C). eauto.
Qed.
Print Assumptions C24_never_negative.
Example C24_example : option_map (fun s => (vget (s_rem s) 0, vget (s_rem s) 13, vget (s_rem s) 35, vget (s_rem s) 33)) (ex_after small_round 22) = Some (0, 1, 1, 2).
Proof. vm_compute. reflexivity. Qed.

(** C25 *)
Theorem C25_view : forall L go e0 evs n s pls p k, runs L go e0 evs n s pls -> 0 <= p < 4 -> (k < 34)%nat ->
  vget (vec (s_pov s) p) k = 4 - num k (dealt e0 (Z.to_nat p) ++ drawn p pls)
    - num k (first_indicator e0 :: indicators pls) - num k (discards_of_others p pls) - num k (shown_by_others p pls).
Proof.
  intros L go e0 evs n s pls p k R Hp Hk. destruct (seen_inv_holds _ _ _ _ _ _ _ R k ltac:(lia)) as [_ B].
  unfold vec. rewrite (B (Z.to_nat p)) by lia. rewrite Z2Nat.id by lia.
  unfold class_size. apply Nat.ltb_lt in Hk. rewrite Hk, RoundTiles.num_app, (RoundTiles.num_cons k (first_indicator e0) (indicators pls)). lia.
Qed.
Print Assumptions C25_view.
Theorem C25_view_red : forall L go e0 evs n s pls p k, runs L go e0 evs n s pls -> 0 <= p < 4 -> (34 <= k < 37)%nat ->
  vget (vec (s_pov s) p) k = 1 - num k (dealt e0 (Z.to_nat p) ++ drawn p pls)
    - num k [first_indicator e0] - num k (discards_of_others p pls) - num k (shown_by_others p pls).
Proof.
  intros L go e0 evs n s pls p k R Hp Hk. destruct (seen_inv_holds _ _ _ _ _ _ _ R k ltac:(lia)) as [_ B].
  unfold vec. rewrite (B (Z.to_nat p)) by lia. rewrite Z2Nat.id by lia.
  unfold class_size. rewrite RoundTiles.num_app. destruct (Nat.ltb_spec k 34); lia.
Qed.
Print Assumptions C25_view_red.
(** A red five that becomes an indicator is not taken off the red-five component. *)
Theorem C25_refuted_red_indicator : exists L go e0 evs n s pls, runs L go e0 evs n s pls /\
  In 52 (indicators pls) /\ vget (vec (s_pov s) 3) 35 = 1.
Proof.
  exists ex_libs, 169, (hd (MkEvent "" []) small_round), (firstn 3 (tl small_round)).
  eexists _, _, [PlDraw 0 3; PlCall 0 768; PlDora 52]. split; [eexists; split; [vm_compute; reflexivity|]; split; vm_compute; reflexivity|].
  split; [left; reflexivity|vm_compute; reflexivity].
Qed.
Print Assumptions C25_refuted_red_indicator.
Example C25_example : option_map (fun s => (vget (vec (s_pov s) 0) 0, vget (vec (s_pov s) 2) 0, vget (vec (s_pov s) 3) 27)) (ex_after small_round 22) = Some (0, 0, 0).
Proof. vm_compute. reflexivity. Qed.

(** C26 *)
Theorem C26_points : forall L go e0 evs n s pls, runs L go e0 evs n s pls ->
  vsum (s_scores s) + 10 * s_kyotaku s = vsum (initial_scores e0) + 10 * initial_sticks e0 /\
  s_kyotaku s = initial_sticks e0 + all_sticks pls /\
  forall p, (p < List.length (initial_scores e0))%nat ->
    vget (s_scores s) p = vget (initial_scores e0) p - 10 * sticks (Z.of_nat p) pls.
Proof. intros L go e0 evs n s pls R. apply score_inv_holds in R as (_ & A & B & C). auto. Qed.
Print Assumptions C26_points.
Theorem C26_recorded : forall L go e0 rest half tokens, process_round L go (e0 :: rest) = Ok (half, tokens) ->
  Forall (fun h => let so := sv_obj (state_of h) in
    vsum (so_scores so) + 10 * so_kyotaku so = vsum (initial_scores e0) + 10 * initial_sticks e0) half.
Proof. exact scores_recorded. Qed.
Print Assumptions C26_recorded.
Example C26_example : option_map (fun s => (s_scores s, s_kyotaku s)) (ex_after small_round 22) = Some ([250; 240; 240; 250], 2).
Proof. vm_compute. reflexivity. Qed.

(** C27 *)
Theorem C27_flags : forall L go e0 evs n s pls p, runs L go e0 evs n s pls -> 0 <= p < 4 ->
  (flag (s_reaches s) p = 1 <-> In (PlReach2 p) pls) /\ (flag (s_reaches s) p = 0 <-> ~ In (PlReach2 p) pls) /\
  (flag (s_dreaches s) p = 0 \/ flag (s_dreaches s) p = 1) /\
  (flag (s_dreaches s) p = 1 -> flag (s_reaches s) p = 1) /\
  (flag (s_menzen s) p = 0 <-> opened p pls) /\ (flag (s_menzen s) p = 1 <-> ~ opened p pls) /\
  forall k, (k < 37)%nat ->
    (vget (vec (s_sute s) p) k = 1 <-> exists x, In x (discarded p pls) /\ in_class k x = true) /\
    (vget (vec (s_sute s) p) k = 0 <-> ~ exists x, In x (discarded p pls) /\ in_class k x = true).
Proof. exact flags_exact. Qed.
Print Assumptions C27_flags.
Example C27_example : option_map (fun s => (s_reaches s, s_dreaches s, s_menzen s, vget (vec (s_sute s) 0) 27)) (ex_after small_round 22)
  = Some ([0; 0; 1; 0], [0; 0; 0; 0], [1; 0; 1; 1], 1).
Proof. vm_compute. reflexivity. Qed.

(** C28.  The counter also goes down at every kan and at every new indicator. *)
Theorem C28_counter_partial : forall L go e0 evs n s pls, runs L go e0 evs n s pls ->
  s_rtsumo s = 70 - draws pls - kans pls - new_doras pls.
Proof. intros L go e0 evs n s pls R. apply count_inv_holds in R as [A _]. exact A. Qed.
Print Assumptions C28_counter_partial.
Theorem C28_exact_without_kans : forall L go e0 evs n s pls, runs L go e0 evs n s pls ->
  kans pls = 0 -> new_doras pls = 0 -> s_rtsumo s = 70 - draws pls.
Proof. intros L go e0 evs n s pls R A B. apply count_inv_holds in R as [-> _]. lia. Qed.
Print Assumptions C28_exact_without_kans.
Theorem C28_refuted : exists L go e0 evs n s pls, runs L go e0 evs n s pls /\ s_rtsumo s <> 70 - draws pls /\
  kans pls = 1 /\ new_doras pls = 1 /\ draws pls = 1 /\ s_rtsumo s = 67.
Proof.
  exists ex_libs, 169, (hd (MkEvent "" []) small_round), (firstn 3 (tl small_round)).
  eexists _, _, [PlDraw 0 3; PlCall 0 768; PlDora 52]. split; [eexists; split; [vm_compute; reflexivity|]; split; vm_compute; reflexivity|].
  split; [vm_compute; discriminate|]. repeat split; vm_compute; reflexivity.
Qed.
Print Assumptions C28_refuted.

(** C29 *)
Theorem C29_tokens : forall L go e0 evs n s pls, runs L go e0 evs n s pls ->
  Forall2 (fun e tok => token e = Ok tok) (public None pls) (s_tokens s).
Proof. intros L go e0 evs n s pls R. apply token_inv_holds in R as [_ A]. exact A. Qed.
Print Assumptions C29_tokens.
Example C29_example : option_map s_tokens (ex_after small_round 22) =
  Some [18435; 36877; 10267; 26993; 10515; 10909; 19970; 11167; 10399; 18752; 36897; 10654; 10909].
Proof. vm_compute. reflexivity. Qed.

(** C30.  [shapes] gives the index of every half-turn: the number of public events
    before the draw, discard or added kan (included) that produced it. *)
Theorem C30_indices : forall L go e0 evs n s pls, runs L go e0 evs n s pls ->
  map shape_of (rev (s_half s)) = shapes 0 pls.
Proof. intros L go e0 evs n s pls R. apply half_inv_holds in R as [_ A]. exact A. Qed.
Print Assumptions C30_indices.
(** Half-turns recorded by [evs1] index only tokens of [evs1]; later events add
    half-turns and tokens behind. *)
Theorem C30_no_future : forall L go e0 evs1 evs2 n s1 s2 pls1 pls2,
  runs L go e0 evs1 n s1 pls1 -> runs L go e0 (evs1 ++ evs2) n s2 pls2 ->
  Forall (fun h => 0 <= index_of h <= Z.of_nat (List.length (s_tokens s1))) (s_half s1) /\
  (exists later, map shape_of (rev (s_half s2)) = map shape_of (rev (s_half s1)) ++ later) /\
  (exists later, s_tokens s2 = s_tokens s1 ++ later).
Proof. exact no_future. Qed.
Print Assumptions C30_no_future.
Theorem C30_monotone : forall L go e0 evs n s pls, runs L go e0 evs n s pls ->
  nondecreasing (map index_of (rev (s_half s))).
Proof. intros L go e0 evs n s pls R. apply nondecreasing_idx in R. apply R. Qed.
Print Assumptions C30_monotone.
(** The discard a PostTurn responds to is public, but not in its visible prefix. *)
Theorem C30_refuted_post_turn : exists L go e0 n s w t, runs L go e0 [MkEvent "T124" []; MkEvent "D110" []] n s [PlDraw 0 124; PlDiscard w t] /\
  List.length (s_tokens s) = 1%nat /\ map shape_of (rev (s_half s)) = [HDuring 0 0; HDiscard w t 0; HPost w 0].
Proof.
  exists ex_libs, 169, (hd (MkEvent "" []) small_round). eexists _, _, 0, 110.
  split; [eexists; split; [vm_compute; reflexivity|]; split; vm_compute; reflexivity|]. split; vm_compute; reflexivity.
Qed.
Print Assumptions C30_refuted_post_turn.

(** C31.  The kinds and players of the half-turns, on the output of an accepted round. *)
Theorem C31_half_turns : forall L go evs half tokens, process_round L go evs = Ok (half, tokens) ->
  exists e0 plays results pls, evs = e0 :: plays ++ results /\ map play_of plays = map Some pls /\
    map shape_of half = shapes 0 pls.
Proof.
  intros L go evs half tokens H. apply accepted_states in H as (e0 & pl & re & n & s & pls & A & (s0 & _ & _ & B) & _ & C & _).
  exists e0, pl, re, pls. auto.
Qed.
Print Assumptions C31_half_turns.
Example C31_example : option_map (fun s => map shape_of (rev (s_half s))) (ex_after small_round 18) =
  Some [HDuring 0 0; HDuring 0 2; HDiscard 0 110 2; HPost 0 2; HDiscard 1 77 4; HPost 1 4; HDuring 2 5; HDiscard 2 117 5; HPost 2 5;
        HDuring 3 7; HDiscard 3 125 7; HPost 3 7; HDuring 0 8; HDiscard 0 126 8; HPost 0 8; HDuring 1 9; HPost 1 10; HDuring 1 10].
Proof. vm_compute. reflexivity. Qed.

(** C32.  The fields that are copied show the state after the last draw or call (the
    first [m] plays); the other five show the end of the round. *)
Theorem C32_copied_fields_partial : forall L go evs half tokens, process_round L go evs = Ok (half, tokens) ->
  exists e0 plays results n s pls, evs = e0 :: plays ++ results /\ runs L go e0 plays n s pls /\
  Forall2 (fun m h => exists s1, runs L go e0 (firstn m plays) n s1 (firstn m pls) /\
     let so := sv_obj (state_of h) in
     so_scores so = s_scores s1 /\ so_kyotaku so = s_kyotaku s1 /\ so_sutehai so = s_sute s1 /\ so_reaches so = s_reaches s1 /\
     so_double_reaches so = s_dreaches s1 /\ so_remaining_tsumo so = s_rtsumo s1 /\ so_remaining_turns so = s_rtsumo s1 /\ so_dora so = s_doras s1 /\
     so_honba so = n_honba n /\ so_parent_tensor so = n_parent_tensor n /\ so_rounds_remaining so = n_rounds_remaining n /\
     so_parent_rounds_remaining so = n_parent_rounds_remaining n)
    (moments 0 0 pls) half.
Proof.
  intros L go evs half tokens H. apply accepted_states in H as (e0 & pl & re & n & s & pls & A & B & _ & _ & C & _).
  exists e0, pl, re, n, s, pls. auto.
Qed.
Print Assumptions C32_copied_fields_partial.
Theorem C32_aliased_fields_show_the_end : forall L go evs half tokens, process_round L go evs = Ok (half, tokens) ->
  exists e0 plays results n s pls, evs = e0 :: plays ++ results /\ runs L go e0 plays n s pls /\
  Forall (fun h => exists p, (sv_hand (state_of h) = row (s_ht s) p /\ sv_pov (state_of h) = row (s_pov s) p /\ so_player (sv_obj (state_of h)) = p) /\
     sv_remaining (state_of h) = s_rem s /\ sv_menzen (state_of h) = s_menzen s /\ sv_melds (state_of h) = s_melds s) half.
Proof.
  intros L go evs half tokens H. apply accepted_states in H as (e0 & pl & re & n & s & pls & A & B & _ & _ & _ & C).
  exists e0, pl, re, n, s, pls. auto.
Qed.
Print Assumptions C32_aliased_fields_show_the_end.
(** The first half-turn is player 0's first draw, a fourth 1m; in the recorded object
    the player holds no 1m, player 1 has an open hand, and unseen tiles differ. *)
Theorem C32_refuted : exists L go e0 rest h half tokens n s1 pls1,
  process_round L go (e0 :: rest) = Ok (h :: half, tokens) /\
  runs L go e0 (firstn 1 rest) n s1 pls1 /\ moments 0 0 pls1 = [1%nat] /\
  vget (vec (s_ht s1) 0) 0 = 4 /\ vget (sv_hand (state_of h)) 0 = 0 /\
  s_menzen s1 = [1; 1; 1; 1] /\ sv_menzen (state_of h) = [1; 0; 1; 1] /\
  s_melds s1 = [[]; []; []; []] /\ map (@List.length naki) (sv_melds (state_of h)) = [1%nat; 1%nat; 0%nat; 0%nat] /\
  s_rem s1 <> sv_remaining (state_of h) /\ vec (s_pov s1) 0 <> sv_pov (state_of h).
Proof.
  exists ex_libs, 169, (hd (MkEvent "" []) small_round), (tl small_round).
  eexists _, _, _, _, _, [PlDraw 0 3]. split; [vm_compute; reflexivity|].
  split; [eexists; split; [vm_compute; reflexivity|]; split; vm_compute; reflexivity|].
  split; [reflexivity|]. do 6 (split; [vm_compute; reflexivity|]). split; vm_compute; discriminate.
Qed.
Print Assumptions C32_refuted.
