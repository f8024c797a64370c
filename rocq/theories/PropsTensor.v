(** C43-C49, C55, C73-C75: the training samples built from the half-turns of a round.
    [own_turns], [discards], [reactions], [asked], [tokens_before], [mask_of], [taken],
    [during_action], [post_action]: SpecTensor.v. *)
From Coq Require Import ZArith List Bool String Ascii Lia PeanoNat Permutation.
From Verif Require Import Base Constants Naki Decision Agari Process VecLemmas RoundLemmas
  SpecMeld SpecTokens SpecRound SpecTurn Tensor SpecTensor TensorLemmas TensorRound RoundSplit RoundFacts RoundExamples DataLoader DataLemmas SpecData.
Import ListNotations.
Open Scope Z_scope.

(** The hypotheses of the theorems below hold for every round that is accepted. *)
Lemma plays_exist L go evs half tokens : process_round L go evs = Ok (half, tokens) -> exists e0 rest pls, evs = e0 :: rest /\ plays_of_round evs pls.
Proof.
  intros H. apply accepted_round in H as (e0 & plays & results & n & s & pls & -> & _ & _ & Fr & Fp & (s0 & _ & _ & P) & _).
  exists e0, (plays ++ results), pls. split; [reflexivity|]. exists e0, plays, results. auto.
Qed.
Lemma formed_rounds L go evs half tokens : process_round L go evs = Ok (half, tokens) ->
  Forall well_formed half /\ Forall (fun h => 0 <= index_of h) half.
Proof.
  intros H. pose proof (plays_exist _ _ _ _ _ H) as (e0 & rest & pls & -> & P).
  destruct (accepted_formed _ _ _ _ _ _ _ H P) as (W & I & _). auto.
Qed.

(** ** C43 *)
Theorem C43_rows : forall L go evs half tokens a t, process_round L go evs = Ok (half, tokens) -> build_tensors a half tokens = Ok t ->
  Forall2 (fun h r => tokens_before tokens (index_of h) (r_tokens r)) (own_turns half) (t_during t) /\
  Forall2 (fun h r => tokens_before tokens (index_of h) (r_tokens r)) (discards half) (t_discard t) /\
  exists rows, t_post t = List.concat rows /\
    Forall2 (fun h rs => Forall2 (fun _ r => tokens_before tokens (index_of h) (r_tokens r)) (asked h) rs) (reactions half) rows.
Proof.
  intros L go evs half tokens a t H B. destruct (formed_rounds _ _ _ _ _ H) as [W I].
  destruct (build_ok _ _ _ _ B W I) as (D1 & D2 & rows & E & D3). split; [|split].
  - eapply Forall2_impl; [|exact D1]. intros h r (p & v & ds & i & -> & T & _). exact T.
  - eapply Forall2_impl; [|exact D2]. intros h r (p & v & tl & i & -> & T & _). exact T.
  - exists rows. split; [exact E|]. eapply Forall2_impl; [|exact D3]. intros h rs (p & v & ds & i & tr & f & -> & T & _ & _ & F).
    eapply Forall2_impl; [|exact F]. intros q r (-> & _). exact T.
Qed.
Print Assumptions C43_rows.
(** For any list of half-turns with well-formed decisions, of a round or not. *)
Theorem C43_any : forall a turns tokens t, build_tensors a turns tokens = Ok t -> Forall well_formed turns -> Forall (fun h => 0 <= index_of h) turns ->
  Forall (fun r => List.length (r_tokens r) = 150%nat) (t_during t ++ t_discard t ++ t_post t).
Proof.
  intros a turns tokens t B W I. destruct (build_ok _ _ _ _ B W I) as (D1 & D2 & rows & -> & D3). rewrite !Forall_app. split; [|split].
  - clear - D1. induction D1 as [|h r l l' (p & v & ds & i & _ & (T & _) & _) _ IH]; constructor; assumption.
  - clear - D2. induction D2 as [|h r l l' (p & v & tl & i & _ & (T & _) & _) _ IH]; constructor; assumption.
  - clear - D3. induction D3 as [|h rs l l' (p & v & ds & i & tr & f & _ & (T & _) & _ & _ & F) _ IH]; cbn [List.concat]; [constructor|]. apply Forall_app. split; [|exact IH].
    clear - F T. induction F as [|q r l l' (E & _) _ IH]; constructor; [rewrite E; exact T|assumption].
Qed.
Print Assumptions C43_any.
Definition sample_round (L : libs) (a : agent) (evs : list event) : option (list (halfturn sview) * list Z * tensors) :=
  match process_round L 169 evs with
  | Ok (h, tk) => match build_tensors a h tk with Ok t => Some (h, tk, t) | Err _ => None end
  | Err _ => None
  end.
Lemma sample_round_ok L a evs (chk : list (halfturn sview) -> list Z -> tensors -> bool) :
  match sample_round L a evs with Some (h, tk, t) => chk h tk t | None => false end = true ->
  exists h tk t, process_round L 169 evs = Ok (h, tk) /\ build_tensors a h tk = Ok t /\ chk h tk t = true.
Proof.
  unfold sample_round. destruct (process_round L 169 evs) as [[h tk]|]; [|discriminate]. destruct (build_tensors a h tk) as [t|] eqn:E; [|discriminate].
  intros H. exists h, tk, t. auto.
Qed.
Example C43_example : match sample_round ex_libs ORDERED small_round with
  | Some (h, tk, t) => Nat.eqb (List.length (t_during t)) 5 && Nat.eqb (List.length (t_discard t)) 7 && Nat.eqb (List.length (t_post t)) 2
  | None => false end = true.
Proof. vm_compute. reflexivity. Qed.

(** ** C44 *)
Theorem C44_accepted : forall L go evs half tokens, process_round L go evs = Ok (half, tokens) ->
  Forall well_formed half /\ Forall (fun h => 0 <= index_of h) half.
Proof. exact formed_rounds. Qed.
Print Assumptions C44_accepted.
Theorem C44_during : forall a turns tokens t, build_tensors a turns tokens = Ok t -> Forall well_formed turns -> Forall (fun h => 0 <= index_of h) turns ->
  Forall2 (fun h r => mask_of 71 (fun i => i = 0 \/ exists d, In d (decisions_of h) /\ during_action d i) (r_mask r) /\ 2 <= vsum (r_mask r))
    (own_turns turns) (t_during t).
Proof.
  intros a turns tokens t B W I. destruct (build_ok _ _ _ _ B W I) as (D1 & _).
  assert (S : two_allowed (t_during t) = true).
  { unfold build_tensors in B. apply bind_ok in B as (du & _ & B). apply bind_ok in B as (u1 & S & B). apply passert_ok in S.
    apply bind_ok in B as (di & _ & B). apply bind_ok in B as (u2 & _ & B). apply bind_ok in B as (po & _ & B). apply bind_ok in B as (u3 & _ & B).
    apply Ok_inj in B. subst t. exact S. }
  unfold two_allowed in S. rewrite forallb_forall in S. clear B W I. revert D1 S. generalize (own_turns turns) (t_during t). intros l l' F S.
  induction F as [|h r l l' (p & v & ds & i & -> & _ & _ & _ & _ & M & _) _ IH]; constructor.
  - split; [exact M|]. specialize (S r (or_introl eq_refl)). now apply Z.leb_le in S.
  - apply IH. intros x Hx. apply S. now right.
Qed.
Print Assumptions C44_during.
Theorem C44_post : forall a turns tokens t, build_tensors a turns tokens = Ok t -> Forall well_formed turns -> Forall (fun h => 0 <= index_of h) turns ->
  Forall (fun r => 2 <= vsum (r_mask r)) (t_post t) /\
  exists rows, t_post t = List.concat rows /\
  Forall2 (fun h rs => Forall2 (fun q r => mask_of 154 (fun i => i = 0 \/ exists d, In d (decisions_for h q) /\ post_action d i) (r_mask r)) (asked h) rs) (reactions turns) rows.
Proof.
  intros a turns tokens t B W I. destruct (build_ok _ _ _ _ B W I) as (_ & _ & rows & E & D3).
  split.
  { unfold build_tensors in B. apply bind_ok in B as (du & _ & B). apply bind_ok in B as (u1 & _ & B).
    apply bind_ok in B as (di & _ & B). apply bind_ok in B as (u2 & _ & B). apply bind_ok in B as (po & _ & B). apply bind_ok in B as (u3 & S & B).
    apply Ok_inj in B. subst t. apply passert_ok in S. unfold two_allowed in S. rewrite forallb_forall in S. apply Forall_forall. intros r Hr. apply S in Hr. now apply Z.leb_le. }
  exists rows. split; [exact E|]. eapply Forall2_impl; [|exact D3]. intros h rs (p & v & ds & i & tr & f & _ & _ & _ & _ & F).
  eapply Forall2_impl; [|exact F]. intros q r (_ & _ & _ & M & _ & N). eapply mask_ext; [|exact M].
  intros j _. split; [intros (d & Id & [-> | A]); [now left|right; eauto]|].
  intros [-> |(d & Id & A)]; [|eauto]. destruct (decisions_for h q) as [|d l]; [contradiction|]. exists d. split; [now left|now left].
Qed.
Print Assumptions C44_post.
(** The assertions never fire: such half-turns can always be turned into samples. *)
Theorem C44_total : forall a turns tokens, Forall buildable turns -> exists t, build_tensors a turns tokens = Ok t.
Proof. exact build_total. Qed.
Print Assumptions C44_total.
Example C44_example : match sample_round ex_libs TF small_round with
  | Some (h, tk, t) => match t_during t, t_post t with
     | r :: _, q :: _ => (vsum (r_mask r) =? 3) && (nth 3 (r_mask r) 0 =? 1) && (vsum (r_mask q) =? 2)
     | _, _ => false end
  | None => false end = true.
Proof. vm_compute. reflexivity. Qed.

(** ** C45 *)
Theorem C45_labels : forall a turns tokens t, build_tensors a turns tokens = Ok t -> Forall well_formed turns -> Forall (fun h => 0 <= index_of h) turns ->
  exists rows, t_post t = List.concat rows /\
  Forall2 (fun h rs => Forall2 (fun q r => r_player r = q /\ taken post_action 0 (decisions_for h q) (r_label r) /\ allowed_by r (r_label r)) (asked h) rs) (reactions turns) rows.
Proof.
  intros a turns tokens t B W I. destruct (build_ok _ _ _ _ B W I) as (_ & _ & rows & E & D3). exists rows. split; [exact E|]. clear E B I.
  assert (W' : Forall well_formed (reactions turns)) by (apply Forall_forall; intros h Hh; apply filter_In in Hh as [Hh _]; rewrite Forall_forall in W; now apply W).
  clear W. induction D3 as [|h rs l l' (p & v & ds & i & tr & f & Eh & _ & _ & _ & F) _ IH]; constructor; [|apply IH; inversion W'; assumption].
  inversion W' as [|? ? Wh _]; subst. cbn [well_formed] in Wh. destruct Wh as (_ & Ld & Wd). clear IH W'.
  eapply Forall2_impl; [|exact F]. intros q r (_ & _ & Pq & M & T & N). split; [exact Pq|]. split; [exact T|].
  assert (Pr : proper post_action 154 (nth (Z.to_nat q) ds [])).
  { cbn [decisions_for] in N. rewrite Forall_forall in Wd. apply Wd. destruct (nth_in_or_default (Z.to_nat q) ds []) as [Hin|Hd]; [exact Hin|]. rewrite Hd in N. now cbn in N. }
  destruct act_facts as (_ & _ & _ & A1 & A2 & A3).
  destruct (taken_allowed _ _ _ _ _ _ _ M T) as [Q1 Q2].
  - destruct (decisions_for _ q) as [|d ls]; [contradiction|]. exists d. split; [now left|now left].
  - lia.
  - intros d j Hd Hj. split; [eauto|]. pose proof (proper_range _ _ _ d j Pr A1 A2 A3 ltac:(lia) Hd Hj). lia.
  - split; [lia|exact Q1].
Qed.
Print Assumptions C45_labels.
(** Who is asked: seats in order from the right of the acting player; nobody after the
    first one who acted. *)
Theorem C45_order : forall {S} (h : halfturn S) p v ds i, h = PostTurn p v ds i ->
  forall q, In q (asked h) <-> exists pre post, [(p + 1) mod 4; (p + 2) mod 4; (p + 3) mod 4] = pre ++ q :: post /\
     decisions_for h q <> [] /\ Forall (fun x => Forall (fun d => d_executed d = false) (decisions_for h x)) pre.
Proof.
  intros S h p v ds i -> q. cbn [asked]. generalize [(p + 1) mod 4; (p + 2) mod 4; (p + 3) mod 4]. intros l.
  assert (X : forall l0, existsb d_executed l0 = false <-> Forall (fun d => d_executed d = false) l0).
  { intros l0. induction l0 as [|d l0 IH]; cbn [existsb]; [split; [constructor|reflexivity]|]. rewrite orb_false_iff, IH. split; [intros [A B]; now constructor|intros A; inversion A; auto]. }
  induction l as [|x l IH]; cbn [up_to_actor].
  - split; [intros []|]. intros (pre & post & E & _). now apply app_cons_not_nil in E.
  - destruct (decisions_for (PostTurn p v ds i) x) as [|d dl] eqn:Ex.
    + rewrite IH. split.
      * intros (pre & post & -> & N & F). exists (x :: pre), post. split; [reflexivity|]. split; [exact N|]. constructor; [rewrite Ex; constructor|exact F].
      * intros (pre & post & E & N & F). destruct pre as [|y pre]; cbn [app] in E; injection E as <- E; [congruence|].
        exists pre, post. split; [exact E|]. split; [exact N|]. now inversion F.
    + cbn [In]. destruct (existsb d_executed (d :: dl)) eqn:Ee.
      * split.
        -- intros [<-|[]]. exists [], l. split; [reflexivity|]. split; [congruence|constructor].
        -- intros (pre & post & E & N & F). destruct pre as [|y pre]; cbn [app] in E; injection E as <- E; [now left|].
           exfalso. inversion F as [|? ? F1 _]; subst. rewrite Ex in F1. apply X in F1. congruence.
      * rewrite IH. split.
        -- intros [<-|(pre & post & -> & N & F)]; [exists [], l; split; [reflexivity|]; split; [congruence|constructor]|].
           exists (x :: pre), post. split; [reflexivity|]. split; [exact N|]. constructor; [rewrite Ex; now apply X|exact F].
        -- intros (pre & post & E & N & F). destruct pre as [|y pre]; cbn [app] in E; injection E as <- E; [now left|]. right.
           exists pre, post. split; [exact E|]. split; [exact N|]. now inversion F.
Qed.
Print Assumptions C45_order.
Example C45_example : match sample_round ex_libs CONV real_round with
  | Some (h, tk, t) => match map r_label (t_post t) with 0 :: 63 :: 116 :: _ => true | _ => false end | None => false end = true.
Proof. vm_compute. reflexivity. Qed.

(** ** C46 *)
(** The label depends on the calls only: the marked call, or 2 - never 0 and never 1. *)
Theorem C46_exact_partial : forall a turns tokens t, build_tensors a turns tokens = Ok t -> Forall well_formed turns -> Forall (fun h => 0 <= index_of h) turns ->
  Forall2 (fun h r => taken during_action 2 (calls_in h) (r_label r) /\
     (Exists (fun d => d_executed d = true) (calls_in h) -> taken during_action 0 (calls_in h) (r_label r) /\ allowed_by r (r_label r))) (own_turns turns) (t_during t).
Proof.
  intros a turns tokens t B W I. destruct (build_ok _ _ _ _ B W I) as (D1 & _). clear B I.
  assert (W' : Forall well_formed (own_turns turns)) by (apply Forall_forall; intros h Hh; apply filter_In in Hh as [Hh _]; rewrite Forall_forall in W; now apply W).
  clear W. induction D1 as [|h r l l' (p & v & ds & i & Eh & _ & _ & _ & _ & M & T) _ IH]; constructor; [|apply IH; inversion W'; assumption].
  inversion W' as [|? ? Wh _]; subst. cbn [well_formed] in Wh. clear IH W'. pose proof Wh as Wh'.
  destruct Wh as (w & ri & c & -> & _). cbn [nth calls_in] in *. split; [exact T|]. intros Ex. apply Exists_exists in Ex as (d0 & I0 & X0).
  assert (T0 : taken during_action 0 c (r_label r)).
  { destruct T as [T|(F & _)]; [now left|]. rewrite Forall_forall in F. rewrite (F d0 I0) in X0. discriminate X0. }
  split; [exact T0|]. destruct act_facts as (A1 & A2 & A3 & _).
  destruct (taken_allowed _ _ _ _ _ _ _ M T0) as [Q1 Q2]; [now left|lia| |split; [lia|exact Q1]].
  intros d j Hd Hj. assert (In d (List.concat [w; ri; c])) by (cbn [List.concat]; rewrite app_nil_r, !in_app_iff; auto). split; [right; eauto|].
  pose proof (proper_range _ _ _ d j Wh' A1 A2 A3 ltac:(lia) H Hj). lia.
Qed.
Print Assumptions C46_exact_partial.
(** A player who passes is labelled with riichi, even where riichi is not allowed: a
    library that reports a win on every draw and no tenpai. *)
Definition all_wins : libs := MkLibs (fun _ => Ok true) (fun _ => Ok 1%Z).
Theorem C46_refuted : exists L go evs half tokens a t h r, process_round L go evs = Ok (half, tokens) /\ build_tensors a half tokens = Ok t /\
  hd_error (own_turns half) = Some h /\ hd_error (t_during t) = Some r /\
  Forall (fun d => d_executed d = false) (decisions_of h) /\ r_label r = 2 /\ ~ allowed_by r 2 /\ allowed_by r 0.
Proof.
  destruct (sample_round_ok all_wins TF real_round (fun h _ t => match hd_error (own_turns h), hd_error (t_during t) with
    | Some x, Some r => forallb (fun d => negb (d_executed d)) (decisions_of x) && (r_label r =? 2) && (nth 2 (r_mask r) 0 =? 0) && (nth 0 (r_mask r) 0 =? 1)
    | _, _ => false end)) as (h & tk & t & E1 & E2 & E3); [vm_compute; reflexivity|].
  destruct (hd_error (own_turns h)) as [x|] eqn:Ex; [|discriminate E3]. destruct (hd_error (t_during t)) as [r|] eqn:Er; [|discriminate E3].
  apply andb_prop in E3 as [E3 E6]. apply andb_prop in E3 as [E3 E5]. apply andb_prop in E3 as [E3 E4]. apply Z.eqb_eq in E4, E5, E6.
  exists all_wins, 169, real_round, h, tk, TF, t, x, r. split; [exact E1|]. split; [exact E2|]. split; [exact Ex|]. split; [exact Er|].
  split; [|split; [exact E4|]].
  - apply Forall_forall. intros d Hd. rewrite forallb_forall in E3. specialize (E3 d Hd). now apply negb_true_iff in E3.
  - unfold allowed_by. split; [|split; [lia|exact E6]]. intros [_ H]. change (Z.to_nat 2) with 2%nat in H. rewrite E5 in H. discriminate H.
Qed.
Print Assumptions C46_refuted.

(** ** C47 *)
(** The label is the type of the discarded tile, and the mask lists the classes the player
    holds when the round has ended - not when the tile was discarded. *)
Theorem C47_exact_partial : forall L go e0 rest half tokens a t pls, process_round L go (e0 :: rest) = Ok (half, tokens) -> build_tensors a half tokens = Ok t ->
  plays_of_round (e0 :: rest) pls -> consistent pls ->
  Forall2 (fun h r => r_label r = tid (tile_of h) / 4 /\ exists final,
      Permutation (dealt e0 (Z.to_nat (half_player h)) ++ drawn (half_player h) pls) (discarded (half_player h) pls ++ shown (half_player h) pls ++ final) /\
      forall k, (k < 37)%nat -> nth k (r_mask r) 0 = if Z.ltb 0 (num k final) then 1 else 0) (discards half) (t_discard t).
Proof.
  intros L go e0 rest half tokens a t pls H B P Co. destruct (formed_rounds _ _ _ _ _ H) as [W I]. destruct (build_ok _ _ _ _ B W I) as (_ & D2 & _). clear B.
  destruct (accepted_formed _ _ _ _ _ _ _ H P) as (_ & _ & Fp). specialize (Fp Co).
  destruct (round_runs _ _ _ _ _ _ _ H P) as (plays & n & s & R & Eh & _ & _).
  assert (Fv : Forall (fun h => sv_hand (state_of h) = vec (s_ht s) (half_player h) /\ 0 <= half_player h < 4) half).
  { destruct (formed_holds _ _ _ _ _ _ _ R) as (F & _ & _). rewrite Forall_forall in F, Fp. apply Forall_forall. intros h Hh. specialize (Fp h Hh). rewrite Eh in Hh. apply in_map_iff in Hh as (h0 & <- & Hh).
    apply in_rev in Hh. destruct (F h0 Hh) as (_ & (_ & Sp & _) & _). unfold vec. rewrite Fp. rewrite (proj1 (half_state s h0)), Nat2Z.id. split; [destruct h0; reflexivity|lia]. }
  assert (Fv' : Forall (fun h => sv_hand (state_of h) = vec (s_ht s) (half_player h) /\ 0 <= half_player h < 4) (discards half)) by (apply Forall_forall; intros h Hh; apply filter_In in Hh as [Hh _]; rewrite Forall_forall in Fv; now apply Fv).
  clear Fv Fp W I Eh H. induction D2 as [|h r l l' (p & v & tl & i & Ehh & _ & _ & _ & _ & Em & ti & Et & El) _ IH]; constructor; [|apply IH; inversion Fv'; assumption].
  inversion Fv' as [|? ? [Hv Hp] _]; subst. cbn [tile_of half_player state_of] in *. split.
  - rewrite El. apply tile2idx_ok in Et. subst ti. rewrite (proj1 (RoundTiles.tix_hd tl)). pose proof (RoundTiles.tid_range tl). rewrite Z2Nat.id; [reflexivity|apply Z.div_pos; lia].
  - destruct (hands_exact _ _ _ _ _ _ _ p R Hp) as (hl & _ & _ & Pm & _ & Hc & _). exists hl. split; [exact Pm|]. intros k Hk.
    destruct (Hc k Hk) as [Hn Hb]. rewrite Em. change (nth k (map (fun c => Z.min c 1) (sv_hand v)) (Z.min 0 1) = if 0 <? num k hl then 1 else 0). rewrite (map_nth (fun c => Z.min c 1)). rewrite Hv. unfold vget in Hn. rewrite Hn.
    destruct (Z.ltb_spec 0 (num k hl)); lia.
Qed.
Print Assumptions C47_exact_partial.
Theorem C47_refuted : exists L go evs half tokens a t r, process_round L go evs = Ok (half, tokens) /\ build_tensors a half tokens = Ok t /\
  In r (t_discard t) /\ ~ allowed_by r (r_label r).
Proof.
  destruct (sample_round_ok ex_libs TF real_round (fun _ _ t => match t_discard t with r :: _ => nth (Z.to_nat (r_label r)) (r_mask r) 0 =? 0 | [] => false end))
    as (h & tk & t & E1 & E2 & E3); [vm_compute; reflexivity|].
  destruct (t_discard t) as [|r l] eqn:Er; [discriminate E3|]. apply Z.eqb_eq in E3.
  exists ex_libs, 169, real_round, h, tk, TF, t, r. split; [exact E1|]. split; [exact E2|]. split; [rewrite Er; now left|]. intros [_ H]. rewrite E3 in H. discriminate H.
Qed.
Print Assumptions C47_refuted.

(** ** C48 *)
(** Up to four, every count can be read back; the four entries never decrease the order. *)
Theorem C48_faithful : forall c, 0 <= c <= 4 -> List.length (thermometer c) = 4%nat /\ Forall (fun x => x = 0 \/ x = 1) (thermometer c) /\ plane_count (thermometer c) = c.
Proof.
  intros c Hc. split; [reflexivity|]. split; [|rewrite thermometer_sum; unfold clamp; lia].
  unfold thermometer. apply Forall_forall. intros x Hx. apply in_map_iff in Hx as (k & <- & _). destruct (_ <? _); cbn; auto.
Qed.
Print Assumptions C48_faithful.
Theorem C48_injective : forall c d, 0 <= c <= 4 -> 0 <= d <= 4 -> thermometer c = thermometer d -> c = d.
Proof. intros c d Hc Hd E. rewrite <- (planes_count CONV c), <- (planes_count CONV d) by auto. cbn [planes]. now rewrite E. Qed.
Print Assumptions C48_injective.
(** Outside that range the nearest count is shown. *)
Theorem C48_clamps : forall c, plane_count (thermometer c) = Z.max 0 (Z.min 4 c).
Proof. exact thermometer_sum. Qed.
Print Assumptions C48_clamps.
(** The rows of a sample can be read back for every agent; transformer.py keeps any count. *)
Theorem C48_rows : forall a v f, convert_state a v = Ok f -> a = TF \/ (counts (sv_hand v) /\ counts (sv_pov v)) ->
  nth 0 (decode (f_x1 f)) [] = sv_hand v /\ nth 1 (decode (f_x1 f)) [] = sv_pov v.
Proof.
  intros a v f H C. destruct (features_ok _ _ _ H) as (_ & _ & E). rewrite E, !decode_nth. cbn [map nth]. split; apply planes_row; tauto.
Qed.
Print Assumptions C48_rows.
Example C48_example : map thermometer [0; 1; 4] = [[0; 0; 0; 0]; [1; 0; 0; 0]; [1; 1; 1; 1]] /\ thermometer (-1) = thermometer 0 /\ thermometer 5 = thermometer 4.
Proof. repeat split. Qed.

(** ** C49 *)
Theorem C49_ordered : forall v f i, convert_state ORDERED v = Ok f -> List.length (so_sutehai (sv_obj v)) = 4%nat -> (so_player (sv_obj v) < 4)%nat ->
  (i < 4)%nat -> Forall counts (so_sutehai (sv_obj v)) ->
  nth (2 + i) (decode (f_x1 f)) [] = nth ((so_player (sv_obj v) + i) mod 4) (so_sutehai (sv_obj v)) [].
Proof.
  intros v f i H Ls Lp Hi C. destruct (features_ok _ _ _ H) as (_ & _ & E). rewrite E, decode_nth. cbn [map Nat.add nth].
  change (@nil (list Z)) with (map (planes ORDERED) []). rewrite map_nth, roll_nth by assumption. apply planes_row. right. now apply counts_nth.
Qed.
Print Assumptions C49_ordered.
(** The other agents show the acting player's own discards only. *)
Theorem C49_others : forall a v f, a <> ORDERED -> convert_state a v = Ok f -> a = TF \/ Forall counts (so_sutehai (sv_obj v)) ->
  List.length (f_x1 f) = 3%nat /\ nth 2 (decode (f_x1 f)) [] = nth (so_player (sv_obj v)) (so_sutehai (sv_obj v)) [].
Proof.
  intros a v f N H C. destruct (features_ok _ _ _ H) as (_ & _ & E). rewrite E, decode_nth.
  destruct a; try contradiction; (split; [reflexivity|]); cbn [map nth]; apply planes_row; (destruct C as [C|C]; [now left|right; now apply counts_nth]).
Qed.
Print Assumptions C49_others.
(** In a round the acting player of the state is the player of the half-turn, and the
    discards are those made before it. *)
Theorem C49_rounds : forall L go e0 rest half tokens pls, process_round L go (e0 :: rest) = Ok (half, tokens) -> plays_of_round (e0 :: rest) pls -> consistent pls ->
  Forall (fun h => half_player h = Z.of_nat (so_player (sv_obj (state_of h))) /\ (so_player (sv_obj (state_of h)) < 4)%nat /\ List.length (so_sutehai (sv_obj (state_of h))) = 4%nat) half.
Proof.
  intros L go e0 rest half tokens pls H P Co. destruct (accepted_formed _ _ _ _ _ _ _ H P) as (_ & _ & Fp). specialize (Fp Co).
  destruct (round_runs _ _ _ _ _ _ _ H P) as (plays & n & s & R & Eh & _ & _). destruct (formed_holds _ _ _ _ _ _ _ R) as (F & _ & _).
  rewrite Forall_forall in F, Fp. apply Forall_forall. intros h Hh. split; [now apply Fp|]. rewrite Eh in Hh. apply in_map_iff in Hh as (h0 & <- & Hh).
  apply in_rev in Hh. destruct (F h0 Hh) as (_ & S & _). destruct (half_state s h0) as [-> _]. unfold sob_ok in S. decompose [and] S. auto.
Qed.
Print Assumptions C49_rounds.
Example C49_example : match sample_round ex_libs ORDERED small_round with
  | Some (h, _, t) => match rev (t_discard t) with r :: _ => Nat.eqb (List.length (f_x1 (r_state r))) 6 && (vsum (nth 3 (decode (f_x1 (r_state r))) []) =? 1) | [] => false end | None => false end = true.
Proof. vm_compute. reflexivity. Qed.

(** ** C55 *)
(** With half-turns that can be turned into samples, a batch fails exactly if it has no
    round and the agent is one of the first three. *)
Theorem C55_exact_partial : forall a games, Forall (fun g => Forall (Forall buildable) (fst g)) games ->
  ((a <> ORDERED /\ List.concat (map (fun g => combine (fst g) (snd g)) games) = []) /\ prepare_batches a games = Err ValueError) \/
  (~ (a <> ORDERED /\ List.concat (map (fun g => combine (fst g) (snd g)) games) = []) /\ exists t, prepare_batches a games = Ok t).
Proof.
  intros a games F. unfold prepare_batches.
  set (f := fun g : game => mapM (fun r => build_tensors a (fst r) (snd r)) (combine (fst g) (snd g))).
  assert (M : exists ts, mapM f games = Ok ts /\ (List.concat ts = [] <-> List.concat (map (fun g => combine (fst g) (snd g)) games) = [])).
  { induction F as [|g games Fg _ (ts & E & IH)]; cbn [mapM map List.concat].
    - exists []. split; [reflexivity|tauto].
    - destruct (mapM_all (fun r => build_tensors a (fst r) (snd r)) (combine (fst g) (snd g))) as (ys & Ey).
      { intros [h tk] I. apply in_combine_l in I. rewrite Forall_forall in Fg. apply build_total, Fg. exact I. }
      change (f g) with (mapM (fun r => build_tensors a (fst r) (snd r)) (combine (fst g) (snd g))). rewrite Ey, E. cbn [bind]. exists (ys :: ts). split; [reflexivity|].
      cbn [List.concat]. apply mapM_ok in Ey. destruct Ey as [|x y l l' _ _]; cbn [app]; [exact IH|]. split; intros H; discriminate H. }
  destruct M as (ts & E & Q). change (mapM _ games) with (mapM f games). rewrite E. cbn [bind]. destruct (List.concat ts) as [|x l] eqn:Ec.
  - destruct a; [left|left|left|right]; try (split; [split; [discriminate|now apply Q]|reflexivity]). split; [intros [N _]; now apply N|]. eexists; reflexivity.
  - right. split; [|destruct a; eexists; reflexivity]. intros [_ H]. apply Q in H. discriminate H.
Qed.
Print Assumptions C55_exact_partial.
(** A directory whose files cannot be processed gives a batch no game is in. *)
Theorem C55_refuted : exists (proc : string -> res game) files bs batch d, iterate proc 2 (dl_init files bs) = Some ([batch], Ok tt, d) /\
  prepare_batches TF batch = Err ValueError /\ prepare_batches CONV batch = Err ValueError /\ prepare_batches LARGE batch = Err ValueError.
Proof.
  exists (fun _ => Err InvalidGameException), ["a"; "b"]%string, 2. eexists _, _. split; [reflexivity|]. repeat split.
Qed.
Print Assumptions C55_refuted.

(** ** C73 *)
Theorem C73_buildable : forall L go e0 rest half tokens pls a, process_round L go (e0 :: rest) = Ok (half, tokens) -> plays_of_round (e0 :: rest) pls ->
  orderly pls -> List.length (initial_scores e0) = 4%nat -> exists t, build_tensors a half tokens = Ok t.
Proof. intros L go e0 rest half tokens pls a H P O S. apply build_total. eapply accepted_buildable; eassumption. Qed.
Print Assumptions C73_buildable.
Lemma orderly_check pls : (forall w c, In (PlCall w c) pls -> is_pon c && is_kakan c = false) -> consistent pls -> forallb (fun p => sticks p pls <=? 1) [0; 1; 2; 3] = true -> orderly pls.
Proof.
  intros U C S. split; [exact C|]. split; [exact U|]. intros p Hp. rewrite forallb_forall in S. apply Z.leb_le, S. cbn [In]. lia.
Qed.

(** Both example rounds are orderly. *)
Definition plays_in (evs : list event) : list play := flat_map (fun e => match play_of e with Some p => [p] | None => [] end) evs.
Lemma Forall_calls pls : forallb (fun p => match p with PlCall _ c => negb (is_pon c && is_kakan c) | _ => true end) pls = true ->
  forall w c, In (PlCall w c) pls -> is_pon c && is_kakan c = false.
Proof. intros F w c I. rewrite forallb_forall in F. apply F in I. now apply negb_true_iff in I. Qed.
Ltac show_orderly := apply orderly_check; [apply Forall_calls; vm_compute; reflexivity|vm_compute; repeat split; discriminate|vm_compute; reflexivity].
Lemma is_result e : (String.eqb (e_tag e) "AGARI" || String.eqb (e_tag e) "RYUUKYOKU") = true <-> result_event e.
Proof. unfold result_event. rewrite orb_true_iff, !String.eqb_eq. tauto. Qed.
Lemma plays_check e0 plays results : forallb (fun e => negb (String.eqb (e_tag e) "AGARI" || String.eqb (e_tag e) "RYUUKYOKU")) plays = true ->
  forallb (fun e => String.eqb (e_tag e) "AGARI" || String.eqb (e_tag e) "RYUUKYOKU") results = true ->
  forallb (fun e => match play_of e with Some _ => true | None => false end) plays = true ->
  plays_of_round (e0 :: plays ++ results) (plays_in plays).
Proof.
  intros A B C. exists e0, plays, results. split; [reflexivity|]. rewrite forallb_forall in A, B, C. split; [|split].
  - apply Forall_forall. intros e I R. apply A in I. apply is_result in R. rewrite R in I. discriminate I.
  - apply Forall_forall. intros e I. apply is_result, B, I.
  - clear A B. unfold plays_in. induction plays as [|e l IH]; [reflexivity|]. cbn [map flat_map]. rewrite map_app, <- IH by (intros x I; apply C; now right).
    specialize (C e (or_introl eq_refl)). destruct (play_of e); [reflexivity|discriminate C].
Qed.
Lemma split_round (evs : list event) k e0 : hd e0 evs = e0 -> (0 < List.length evs)%nat -> evs = e0 :: firstn k (tl evs) ++ skipn k (tl evs).
Proof. intros H L. destruct evs as [|e r]; [inversion L|]. cbn [hd tl] in *. now rewrite firstn_skipn, H. Qed.
Definition small_plays : nat := List.length small_round - 2.
Definition real_plays : nat := List.length real_round - 2.
Example C73_small : exists e0 rest pls half tokens, small_round = e0 :: rest /\ plays_of_round small_round pls /\ orderly pls /\
  List.length (initial_scores e0) = 4%nat /\ process_round ex_libs 169 small_round = Ok (half, tokens).
Proof.
  pose (e0 := hd (MkEvent "" []) small_round).
  assert (E : small_round = e0 :: firstn small_plays (tl small_round) ++ skipn small_plays (tl small_round)) by (apply split_round; [reflexivity|vm_compute; lia]).
  destruct (sample_round_ok ex_libs TF small_round (fun _ _ _ => true)) as (h & tk & t & E1 & _); [vm_compute; reflexivity|].
  exists e0, (tl small_round), (plays_in (firstn small_plays (tl small_round))), h, tk. split; [reflexivity|].
  split; [rewrite E at 1; apply plays_check; vm_compute; reflexivity|]. split; [show_orderly|]. split; [vm_compute; reflexivity|exact E1].
Qed.
Example C73_real : exists e0 rest pls half tokens, real_round = e0 :: rest /\ plays_of_round real_round pls /\ orderly pls /\
  List.length (initial_scores e0) = 4%nat /\ process_round ex_libs 169 real_round = Ok (half, tokens).
Proof.
  pose (e0 := hd (MkEvent "" []) real_round).
  assert (E : real_round = e0 :: firstn real_plays (tl real_round) ++ skipn real_plays (tl real_round)) by (apply split_round; [reflexivity|vm_compute; lia]).
  destruct (sample_round_ok ex_libs TF real_round (fun _ _ _ => true)) as (h & tk & t & E1 & _); [vm_compute; reflexivity|].
  exists e0, (tl real_round), (plays_in (firstn real_plays (tl real_round))), h, tk. split; [reflexivity|].
  split; [rewrite E at 1; apply plays_check; vm_compute; reflexivity|]. split; [show_orderly|]. split; [vm_compute; reflexivity|exact E1].
Qed.

(** ** C74 *)
(** Every reaction sample shows the state of the player whose tile it reacts to: the hand,
    the unseen tiles and the discards of that player, not those of the one who decides. *)
Theorem C74_exact_partial : forall a turns tokens t, build_tensors a turns tokens = Ok t -> Forall well_formed turns -> Forall (fun h => 0 <= index_of h) turns ->
  exists rows, t_post t = List.concat rows /\
  Forall2 (fun h rs => exists f, convert_state a (state_of h) = Ok f /\ Forall (fun r => r_state r = f) rs) (reactions turns) rows.
Proof.
  intros a turns tokens t B W I. destruct (build_ok _ _ _ _ B W I) as (_ & _ & rows & E & D3). exists rows. split; [exact E|].
  eapply Forall2_impl; [|exact D3]. intros h rs (p & v & ds & i & tr & f & -> & _ & _ & C & F). exists f. split; [exact C|].
  clear - F. induction F as [|q r l l' (_ & Q & _) _ IH]; constructor; assumption.
Qed.
Print Assumptions C74_exact_partial.
(** The first reaction of a real round: player 1 decides, but the hand that is shown is
    that of player 0. *)
Theorem C74_refuted : exists L go e0 rest half tokens t h r s, process_round L go (e0 :: rest) = Ok (half, tokens) /\ build_tensors ORDERED half tokens = Ok t /\
  hd_error (reactions half) = Some h /\ hd_error (t_post t) = Some r /\ half_player h <> r_player r /\
  In s half /\ half_player s = r_player r /\
  nth 0 (decode (f_x1 (r_state r))) [] = sv_hand (state_of h) /\ nth 0 (decode (f_x1 (r_state r))) [] <> sv_hand (state_of s).
Proof.
  destruct (sample_round_ok ex_libs ORDERED real_round (fun h _ t => match hd_error (reactions h), hd_error (t_post t) with
    | Some x, Some r => negb (half_player x =? r_player r) && match find (fun s => half_player s =? r_player r) h with
        | Some s => (if list_eq_dec Z.eq_dec (nth 0 (decode (f_x1 (r_state r))) []) (sv_hand (state_of x)) then true else false) && (if list_eq_dec Z.eq_dec (nth 0 (decode (f_x1 (r_state r))) []) (sv_hand (state_of s)) then false else true)
        | None => false end
    | _, _ => false end)) as (h & tk & t & E1 & E2 & E3); [vm_compute; reflexivity|].
  destruct (hd_error (reactions h)) as [x|] eqn:Ex; [|discriminate E3]. destruct (hd_error (t_post t)) as [r|] eqn:Er; [|discriminate E3].
  apply andb_prop in E3 as [E3 E4]. apply negb_true_iff, Z.eqb_neq in E3.
  destruct (find (fun s => half_player s =? r_player r) h) as [s|] eqn:Es; [|discriminate E4]. apply find_some in Es as [I Es]. apply Z.eqb_eq in Es.
  apply andb_prop in E4 as [E4 E5]. destruct (list_eq_dec _ _ (sv_hand (state_of x))) as [E6|] in E4; [|discriminate E4]. destruct (list_eq_dec _ _ (sv_hand (state_of s))) as [|E7] in E5; [discriminate E5|].
  exists ex_libs, 169, (hd (MkEvent "" []) real_round), (tl real_round), h, tk, t, x, r, s. split; [exact E1|]. auto 10.
Qed.
Print Assumptions C74_refuted.

(** ** C75 *)
(** Every sample shows the state recorded with its half-turn (for reactions see C74). *)
Theorem C75_source : forall a turns tokens t, build_tensors a turns tokens = Ok t -> Forall well_formed turns -> Forall (fun h => 0 <= index_of h) turns ->
  Forall2 (fun h r => convert_state a (state_of h) = Ok (r_state r)) (own_turns turns) (t_during t) /\
  Forall2 (fun h r => convert_state a (state_of h) = Ok (r_state r)) (discards turns) (t_discard t) /\
  exists rows, t_post t = List.concat rows /\ Forall2 (fun h rs => Forall (fun r => convert_state a (state_of h) = Ok (r_state r)) rs) (reactions turns) rows.
Proof.
  intros a turns tokens t B W I. destruct (build_ok _ _ _ _ B W I) as (D1 & D2 & rows & E & D3). split; [|split].
  - eapply Forall2_impl; [|exact D1]. intros h r (p & v & ds & i & -> & _ & _ & C & _). exact C.
  - eapply Forall2_impl; [|exact D2]. intros h r (p & v & tl & i & -> & _ & _ & C & _). exact C.
  - exists rows. split; [exact E|]. eapply Forall2_impl; [|exact D3]. intros h rs (p & v & ds & i & tr & f & -> & _ & _ & C & F).
    clear - F C. cbn [state_of] in *. induction F as [|q r l l' (_ & Q & _) _ IH]; constructor; [now rewrite Q|assumption].
Qed.
Print Assumptions C75_source.
(** Scores, dealer, riichi flags, remaining draws, sticks, honba, remaining rounds and
    discards are those after the last draw or call before the decision.  Hand, unseen tiles
    and closed-hand flags are those at the end of the round. *)
Theorem C75_fields_partial : forall L go evs half tokens, process_round L go evs = Ok (half, tokens) ->
  exists e0 plays results n s pls, evs = e0 :: plays ++ results /\ runs L go e0 plays n s pls /\
  Forall2 (fun m h => exists s1, runs L go e0 (firstn m plays) n s1 (firstn m pls) /\
     forall a f, convert_state a (state_of h) = Ok f ->
       nth 0 (f_x2 f) [] = s_scores s1 /\ nth 1 (f_x2 f) [] = n_parent_tensor n /\ nth 2 (f_x2 f) [] = n_parent_rounds_remaining n /\
       nth 3 (f_x2 f) [] = s_dreaches s1 /\ nth 4 (f_x2 f) [] = s_reaches s1 /\
       f_x3 f = [s_rtsumo s1; s_kyotaku s1; n_honba n; n_rounds_remaining n] /\
       skipn 2 (f_x1 f) = map (map (planes a)) (match a with ORDERED => roll (s_sute s1) (so_player (sv_obj (state_of h))) | _ => [row (s_sute s1) (so_player (sv_obj (state_of h)))] end) /\
       nth 6 (f_x2 f) [] = s_menzen s /\
       firstn 2 (f_x1 f) = map (map (planes a)) [row (s_ht s) (so_player (sv_obj (state_of h))); row (s_pov s) (so_player (sv_obj (state_of h)))])
    (moments 0 0 pls) half.
Proof.
  intros L go evs half tokens H. pose proof H as H'. apply accepted_states in H as (e0 & pl & re & n & s & pls & A & B & _ & _ & C & D).
  exists e0, pl, re, n, s, pls. split; [exact A|]. split; [exact B|]. clear A B H'.
  induction C as [|m h lm lh (s1 & R & C) _ IH]; constructor; [|apply IH; inversion D; assumption].
  exists s1. split; [exact R|]. intros a f E. inversion D as [|? ? (p & (D1 & D2 & D3) & D4 & D5 & D6) _]; subst. cbv zeta in C.
  destruct C as (C1 & C2 & C3 & C4 & C5 & C6 & C7 & C8 & C9 & C10 & C11 & C12).
  destruct (features_ok _ _ _ E) as (X2 & X3 & X1). rewrite X2, X3, X1. cbn [nth].
  rewrite C1, C2, C4, C5, C6, C9, C10, C11, C12, D5, D1, D2. repeat (split; [reflexivity|]).
  rewrite C3. split; [destruct a; reflexivity|]. split; reflexivity.
Qed.
Print Assumptions C75_fields_partial.
(** The very first own-turn sample of a round shows player 1 with an open hand; before
    it nobody has called. *)
Theorem C75_refuted : exists L go e0 rest half tokens a t r n s1, process_round L go (e0 :: rest) = Ok (half, tokens) /\ build_tensors a half tokens = Ok t /\
  hd_error (t_during t) = Some r /\ runs L go e0 (firstn 1 rest) n s1 [PlDraw 0 3] /\ s_menzen s1 = [1; 1; 1; 1] /\ nth 6 (f_x2 (r_state r)) [] = [1; 0; 1; 1].
Proof.
  destruct (sample_round_ok ex_libs TF small_round (fun h tk t => match hd_error (t_during t) with Some r => if list_eq_dec Z.eq_dec (nth 6 (f_x2 (r_state r)) []) [1; 0; 1; 1] then true else false | None => false end))
    as (h & tk & t & E1 & E2 & E3); [vm_compute; reflexivity|].
  destruct (hd_error (t_during t)) as [r|] eqn:Er; [|discriminate E3]. destruct (list_eq_dec _ _ _) as [E4|] in E3; [|discriminate E3]. clear E3.
  exists ex_libs, 169, (hd (MkEvent "" []) small_round), (tl small_round), h, tk, TF, t, r. eexists _, _. split; [exact E1|]. split; [exact E2|]. split; [exact Er|].
  split; [eexists; split; [vm_compute; reflexivity|]; split; vm_compute; reflexivity|]. split; [vm_compute; reflexivity|exact E4].
Qed.
Print Assumptions C75_refuted.
