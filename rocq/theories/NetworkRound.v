(** Every sample of an accepted round fits its head. *)
From Coq Require Import ZArith List Bool Reals String Lia PeanoNat.
From Verif Require Import Base Constants Naki Decision Agari Process VecLemmas RoundLemmas SpecTokens SpecRound SpecTurn Tensor SpecTensor TensorLemmas TensorRound RoundFacts
  RoundTiles RoundSplit RoundHalf PropsTensor Encoder PropsEncoder Network SpecNetwork.
Import ListNotations.
Open Scope Z_scope.

(** The vectors in the recorded states *)
Definition state_sizes (v : sview) : Prop :=
  List.length (sv_hand v) = 37%nat /\ Forall (fun c => 0 <= c) (sv_hand v) /\ List.length (sv_pov v) = 37%nat /\
  List.length (so_sutehai (sv_obj v)) = 4%nat /\ (so_player (sv_obj v) < 4)%nat /\ Forall (fun r => List.length r = 37%nat) (so_sutehai (sv_obj v)).
Lemma accepted_sizes L go evs half tokens : process_round L go evs = Ok (half, tokens) -> Forall (fun h => state_sizes (state_of h)) half.
Proof.
  intros H. destruct (plays_exist _ _ _ _ _ H) as (e0 & rest & pls & -> & P).
  destruct (round_runs _ _ _ _ _ _ _ H P) as (plays & n & s & R & -> & _ & _).
  destruct (formed_holds _ _ _ _ _ _ _ R) as (F & _ & _). apply Forall_rev in F. apply Forall_map.
  assert (Wf : wf s) by exact (proj2 (runs_inv_full L go e0 plays n s pls (fun _ _ => True) R (fun _ _ _ => Logic.I) (fun _ _ _ _ _ _ _ _ _ _ => Logic.I))).
  destruct Wf as (_ & _ & Lh & Fh & _ & _ & _ & Lp & Fp & _).
  eapply Forall_impl; [|exact F]. intros h (_ & So & _). destruct So as (S1 & S2 & _ & _ & _ & _ & _ & _ & S3).
  assert (Hand : Forall (fun c => 0 <= c) (row (s_ht s) (so_player (state_of h)))).
  { destruct (hands_exact _ _ _ _ _ _ _ (Z.of_nat (so_player (state_of h))) R ltac:(lia)) as (hl & _ & _ & _ & _ & Hc & _).
    unfold vec in Hc. rewrite Nat2Z.id in Hc. apply Forall_forall. intros c Hin. apply (In_nth _ _ 0) in Hin as (k & Hk & <-).
    assert (Lr : List.length (row (s_ht s) (so_player (state_of h))) = 37%nat) by (unfold row; rewrite Forall_forall in Fh; apply Fh, nth_In; lia).
    rewrite Lr in Hk. destruct (Hc k Hk) as [Hv Hb]. unfold vget in Hv. lia. }
  assert (G : state_sizes (observe s (state_of h))).
  { unfold state_sizes, observe. cbn [sv_hand sv_pov sv_obj]. split; [unfold row; rewrite Forall_forall in Fh; apply Fh, nth_In; lia|].
    split; [exact Hand|]. split; [unfold row; rewrite Forall_forall in Fp; apply Fp, nth_In; lia|]. auto. }
  destruct h; exact G.
Qed.

Lemma In_skip_first {A} (x : A) k l : In x (skipn k l) \/ In x (firstn k l) -> In x l.
Proof. intros H. rewrite <- (firstn_skipn k l). apply in_or_app. tauto. Qed.
Lemma thermometer_len c : List.length (thermometer c) = 4%nat.
Proof. reflexivity. Qed.
Lemma planes_len a c : List.length (planes a c) = depth a.
Proof. destruct a; reflexivity. Qed.
Lemma features_fit a v f : state_sizes v -> convert_state a v = Ok f ->
  List.length (f_x1 f) = channels a /\ Forall (fun rw => List.length rw = 37%nat /\ Forall (fun p => List.length p = depth a) rw) (f_x1 f) /\
  List.length (f_x2 f) = 7%nat /\ Forall (fun v => List.length v = 4%nat) (f_x2 f) /\ List.length (f_x3 f) = 4%nat.
Proof.
  intros (H1 & _ & H2 & H3 & H4 & H5) E. destruct (features_ok _ _ _ E) as (X2 & X3 & X1).
  assert (Ch : List.length (match a with ORDERED => roll (so_sutehai (sv_obj v)) (so_player (sv_obj v)) | _ => [row (so_sutehai (sv_obj v)) (so_player (sv_obj v))] end) = (channels a - 2)%nat /\
    Forall (fun r => List.length r = 37%nat) (match a with ORDERED => roll (so_sutehai (sv_obj v)) (so_player (sv_obj v)) | _ => [row (so_sutehai (sv_obj v)) (so_player (sv_obj v))] end)).
  { assert (Q : Forall (fun r => List.length r = 37%nat) [row (so_sutehai (sv_obj v)) (so_player (sv_obj v))]).
    { constructor; [|constructor]. unfold row. rewrite Forall_forall in H5. apply H5, nth_In. lia. }
    destruct a; [split; [reflexivity|exact Q]..|]. unfold roll. split.
    - rewrite app_length, skipn_length, firstn_length, H3. cbn [channels]. lia.
    - rewrite Forall_forall in H5. apply Forall_app. split; apply Forall_forall; intros r Hr; apply H5; eapply In_skip_first; eauto. }
  destruct Ch as [Ch1 Ch2]. split; [|split].
  - rewrite X1, map_length. cbn [List.length]. rewrite Ch1. destruct a; reflexivity.
  - rewrite X1. apply Forall_map.
    assert (Q : Forall (fun r : list Z => List.length r = 37%nat) (sv_hand v :: sv_pov v :: match a with ORDERED => roll (so_sutehai (sv_obj v)) (so_player (sv_obj v)) | _ => [row (so_sutehai (sv_obj v)) (so_player (sv_obj v))] end)) by (constructor; [assumption|constructor; assumption]).
    eapply Forall_impl; [|exact Q]. intros r Hr. cbv beta. rewrite map_length. split; [exact Hr|]. apply Forall_map, Forall_forall. intros c _. apply planes_len.
  - split; [rewrite X2; reflexivity|]. split; [|rewrite X3; reflexivity].
    unfold convert_state in E. apply bind_ok in E as (ch & _ & E). apply bind_ok in E as (u & G & E). apply Ok_inj in E. subst f. cbn [f_x2].
    destruct (forallb _ _) eqn:Q in G; [|discriminate G]. rewrite forallb_forall in Q. apply Forall_forall. intros x Hx. apply Nat.eqb_eq, Q, Hx.
Qed.

Lemma mask_fits n (P : Z -> Prop) m : mask_of (Z.of_nat n) P m -> (0 < n)%nat -> P 0 -> List.length m = n /\ Forall (fun x => x = 0 \/ x = 1) m /\ In 1 m.
Proof.
  intros [Lm M] Hn P0. split; [lia|]. split.
  - apply Forall_forall. intros x Hx. apply (In_nth _ _ 0) in Hx as (k & Hk & <-). destruct (M (Z.of_nat k) ltac:(lia)) as [[A _]|[A _]]; rewrite Nat2Z.id in A; auto.
  - destruct (M 0 ltac:(lia)) as [[A _]|[_ A]]; [|contradiction]. rewrite <- A. apply nth_In. lia.
Qed.

Theorem samples_fit L go evs half tokens a t : process_round L go evs = Ok (half, tokens) -> build_tensors a half tokens = Ok t ->
  Forall (fits a During) (t_during t) /\ Forall (fits a Discard) (t_discard t) /\ Forall (fits a Post) (t_post t).
Proof.
  intros H B. pose proof (rows_known _ _ _ _ _ _ _ H B) as K. rewrite !Forall_app in K. destruct K as (K1 & K2 & K3).
  pose proof (accepted_sizes _ _ _ _ _ H) as Z. destruct (formed_rounds _ _ _ _ _ H) as [W I]. destruct (build_ok _ _ _ _ B W I) as (D1 & D2 & rows & E & D3).
  rewrite Forall_forall in Z, W. split; [|split].
  - clear B D2 D3 K2 K3.
    assert (G : Forall (fun h => state_sizes (state_of h) /\ well_formed h) (own_turns half)) by (apply Forall_forall; intros h Hh; apply filter_In in Hh as [Hh _]; auto).
    revert K1 G. induction D1 as [|h r l l' (p & v & ds & i & -> & _ & _ & C & _ & M & T) _ IH]; intros K G; constructor; [|apply IH; [inversion K|inversion G]; assumption].
    inversion K as [|? ? [Kl Kt] _]; subst. inversion G as [|? ? [Gs Gw] _]; subst. cbn [state_of well_formed] in *.
    destruct (features_fit _ _ _ Gs C) as (X1 & X2 & X3 & X4 & X5). destruct (mask_fits 71 _ _ M ltac:(lia) (or_introl eq_refl)) as (M1 & M2 & M3).
    unfold fits. cbn [width]. repeat (split; [assumption|]). destruct T as [(d & Id & _ & A)|[_ ->]]; [|lia].
    destruct Gw as (wn & ri & cl & -> & _ & _ & _ & _ & Fc). cbn [nth] in Id. rewrite Forall_forall in Fc. destruct (Fc d Id) as (Cd & j & Aj & Hj).
    destruct d as [| |? nk ?]; try contradiction Cd. cbn [during_action] in *. rewrite Aj in A. injection A as <-. lia.
  - clear D1 D3 K1 K3.
    assert (One : one_allowed (t_discard t) = true).
    { unfold build_tensors in B. apply bind_ok in B as (du & _ & B). apply bind_ok in B as (u1 & _ & B). apply bind_ok in B as (di & _ & B). apply bind_ok in B as (u2 & S & B).
      apply bind_ok in B as (po & _ & B). apply bind_ok in B as (u3 & _ & B). apply Ok_inj in B. subst t. now apply passert_ok in S. }
    unfold one_allowed in One. rewrite forallb_forall in One. clear B.
    assert (G : Forall (fun h => state_sizes (state_of h)) (discards half)) by (apply Forall_forall; intros h Hh; apply filter_In in Hh as [Hh _]; auto).
    revert K2 G One. induction D2 as [|h r l l' (p & v & tl & i & -> & _ & _ & C & _ & Em & ti & Et & El) _ IH]; intros K G One; constructor; [|apply IH; [inversion K; assumption|inversion G; assumption|intros x Hx; apply One; now right]].
    inversion K as [|? ? [Kl Kt] _]; subst. inversion G as [|? ? Gs _]; subst. cbn [state_of] in *.
    destruct (features_fit _ _ _ Gs C) as (X1 & X2 & X3 & X4 & X5). destruct Gs as (Lh & Nh & _).
    assert (Bin : Forall (fun m => m = 0 \/ m = 1) (r_mask r)).
    { rewrite Em. apply Forall_map. eapply Forall_impl; [|exact Nh]. intros c Hc. cbv beta in *. lia. }
    assert (Ex : In 1 (r_mask r)).
    { pose proof (One r (or_introl eq_refl)) as Q. apply existsb_exists in Q as (m & Hm & Nm). apply negb_true_iff, Z.eqb_neq in Nm. rewrite Forall_forall in Bin. destruct (Bin m Hm) as [-> | ->]; [lia|exact Hm]. }
    assert (Lm : List.length (r_mask r) = 37%nat) by (rewrite Em, map_length; exact Lh).
    unfold fits. cbn [width]. repeat (split; [assumption|]). rewrite El. apply tile2idx_ok in Et. subst ti. rewrite (proj1 (tix_hd tl)). pose proof (tid_range tl).
    pose proof (Z.div_pos (tid tl) 4 ltac:(lia) ltac:(lia)). pose proof (Z.div_lt_upper_bound (tid tl) 4 34 ltac:(lia) ltac:(lia)). lia.
  - clear D1 D2 K1 K2 B. rewrite Forall_forall in K3.
    apply Forall_forall. intros r Hr. pose proof (K3 r Hr) as [Kl Kt]. rewrite E in Hr. apply in_concat in Hr as (rs & Hrs & Hr). clear K3 E.
    assert (G : exists h, In h half /\ post_rows a tokens h rs).
    { assert (Q : exists h, In h (reactions half) /\ post_rows a tokens h rs).
      { clear - D3 Hrs. induction D3 as [|h x l l' P _ IH]; [contradiction|]. destruct Hrs as [<-|Hrs]; [exists h; split; [now left|exact P]|]. destruct (IH Hrs) as (h' & Hh & P'). exists h'. split; [now right|exact P']. }
      destruct Q as (h & Hh & P). apply filter_In in Hh as [Hh _]. eauto. }
    destruct G as (h & Hh & p & v & ds & i & tr & f & -> & _ & _ & C & F). pose proof (Z _ Hh) as Gs. pose proof (W _ Hh) as Gw. cbn [state_of well_formed] in Gs, Gw.
    destruct (features_fit _ _ _ Gs C) as (X1 & X2 & X3 & X4 & X5).
    assert (Q : exists q, post_row tr f (PostTurn p v ds i) q r).
    { clear - F Hr. induction F as [|q x l l' P _ IH]; [contradiction|]. destruct Hr as [<-|Hr]; eauto. }
    destruct Q as (q & Er & Ef & _ & M & T & N). destruct (decisions_for (PostTurn p v ds i) q) as [|d0 dl] eqn:Ed; [contradiction N; reflexivity|].
    destruct (mask_fits 154 _ _ M ltac:(lia)) as (M1 & M2 & M3). { exists d0. split; [now left|now left]. }
    unfold fits. cbn [width]. rewrite Ef. repeat (split; [assumption|]). destruct T as [(d & Id & _ & A)|[_ ->]]; [|lia].
    destruct Gw as (_ & Ld & Fd). cbn [decisions_for] in Ed.
    assert (Pr : proper post_action 154 (nth (Z.to_nat q) ds [])).
    { rewrite Forall_forall in Fd. apply Fd. destruct (nth_in_or_default (Z.to_nat q) ds []) as [Hin|Hd]; [exact Hin|]. rewrite Hd in Ed. discriminate Ed. }
    rewrite <- Ed in Id. destruct act_facts as (_ & _ & _ & A1 & A2 & A3). pose proof (proper_range _ _ _ d (r_label r) Pr A1 A2 A3 ltac:(lia) Id A). lia.
Qed.
