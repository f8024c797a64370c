(** C52, C78-C80: the forward pass.  [fits], [allowed], [labels_allowed]: SpecNetwork.v. *)
From Coq Require Import ZArith List Bool Reals String Lia Lra PeanoNat FunctionalExtensionality.
From Verif Require Import Base Constants Process VecLemmas RoundExamples Tensor SpecTensor PropsTensor Encoder EncoderSum EncoderSumLemmas Network NetworkLemmas SpecNetwork NetworkForward NetworkRound.
Import ListNotations.
Open Scope R_scope.

Definition rows_of (h : which) (t : tensors) : list sample := match h with During => t_during t | Discard => t_discard t | Post => t_post t end.
(** A sample built from some accepted round. *)
Definition from_round (a : agent) (h : which) (r : sample) : Prop :=
  exists L go evs half tokens t, process_round L go evs = Ok (half, tokens) /\ build_tensors a half tokens = Ok t /\ In r (rows_of h t).

(** ** C52 *)
Theorem C52_samples_fit : forall a h r, from_round a h r -> fits a h r.
Proof.
  intros a h r (L & go & evs & half & tokens & t & H & B & I). destruct (samples_fit _ _ _ _ _ _ _ H B) as (F1 & F2 & F3). rewrite Forall_forall in F1, F2, F3.
  destruct h; cbn [rows_of] in I; auto.
Qed.
Print Assumptions C52_samples_fit.
(** For all weights, any number of encoder and decoder blocks and any non-empty batch. *)
Theorem C52_shapes : forall a net h l, l <> [] -> Forall (fits a h) l ->
  exists logits loss, forward a net h l = Ok (logits, loss) /\ dims logits = [List.length l; width h].
Proof. intros a net h l N F. destruct (forward_ok a h net l N F) as (raw & [x y] & _ & E & D & _). eauto. Qed.
Print Assumptions C52_shapes.
(** So every batch of samples from any accepted rounds passes through the network. *)
Theorem C52_rounds : forall a net h l, l <> [] -> Forall (from_round a h) l ->
  exists logits loss, forward a net h l = Ok (logits, loss) /\ dims logits = [List.length l; width h].
Proof. intros a net h l N F. apply C52_shapes; [exact N|]. eapply Forall_impl; [|exact F]. apply C52_samples_fit. Qed.
Print Assumptions C52_rounds.
(** An empty batch does not. *)
Theorem C52_empty : forall a net h, forward a net h [] = Err RuntimeError.
Proof. reflexivity. Qed.
Print Assumptions C52_empty.

Lemma sample_exists L a h evs (k : nat) (chk : sample -> bool) :
  match sample_round L a evs with Some (_, _, t) => match nth_error (rows_of h t) k with Some r => chk r | None => false end | None => false end = true ->
  exists r, from_round a h r /\ chk r = true.
Proof.
  intros H. destruct (sample_round_ok L a evs (fun _ _ t => match nth_error (rows_of h t) k with Some r => chk r | None => false end)) as (hf & tk & t & E1 & E2 & E3); [exact H|].
  destruct (nth_error (rows_of h t) k) as [r|] eqn:Er; [|discriminate E3]. exists r. split; [|exact E3]. exists L, 169%Z, evs, hf, tk, t. repeat (split; [assumption|]). eapply nth_error_In. exact Er.
Qed.
Example C52_example : forall h, exists r, from_round ORDERED h r /\ (2 <=? vsum (r_mask r))%Z = true.
Proof. intros []; apply (sample_exists ex_libs _ _ small_round 0); vm_compute; reflexivity. Qed.

(** ** C78 *)
(** In evaluation mode the same sample in two batches gets the same row of logits. *)
Theorem C78_batch : forall a net h l1 l2 n1 n2 r x1 loss1 x2 loss2, evaluation net -> Forall (fits a h) l1 -> Forall (fits a h) l2 ->
  nth_error l1 n1 = Some r -> nth_error l2 n2 = Some r -> forward a net h l1 = Ok (x1, loss1) -> forward a net h l2 = Ok (x2, loss2) ->
  forall k, (k < width h)%nat -> at_ x1 [n1; k] = at_ x2 [n2; k].
Proof.
  intros a net h l1 l2 n1 n2 r x1 loss1 x2 loss2 Ev F1 F2 I1 I2 E1 E2 k _.
  destruct (forward_pair a h net l1 l2 n1 n2 r (agree_evaluation _ _ _ Ev) F1 F2 I1 I2) as (raw1 & raw2 & o1 & o2 & _ & G1 & G2 & (_ & A1 & _) & (_ & A2 & _) & Ar).
  rewrite E1 in G1. rewrite E2 in G2. injection G1 as <-. injection G2 as <-. cbn [fst] in A1, A2. rewrite A1, A2. unfold mask_at. rewrite I1, I2, Ar. reflexivity.
Qed.
Print Assumptions C78_batch.
(** In evaluation mode the loss of a batch is the mean of the losses its samples have on their own. *)
Theorem C78_loss : forall a net h l x loss, evaluation net -> Forall (fits a h) l -> forward a net h l = Ok (x, loss) -> exists losses,
  Forall2 (fun r y => exists x1, forward a net h [r] = Ok (x1, y)) l losses /\ loss = fold_right Rplus 0 losses / INR (List.length l).
Proof.
  intros a net h l x loss Ev F E. assert (N : l <> []) by (intros ->; discriminate E).
  pose (term := fun r => match forward a net h [r] with Ok (_, y) => y | Err _ => 0 end).
  exists (map term l). split.
  - clear E N. induction F as [|r l Hr _ IH]; [constructor|]. cbn [map]. constructor; [|exact IH].
    destruct (forward_ok a h net [r]) as (raw & [x1 y] & _ & E1 & _); [discriminate|now constructor|]. exists x1. unfold term. now rewrite E1.
  - destruct (forward_ok a h net l N F) as (raw & o & _ & G & D & A & Ls). rewrite E in G. injection G as <-. cbn [fst snd] in *. rewrite Ls. f_equal.
    assert (S : forall n, (n < List.length l)%nat -> ln (sum_n (width h) (fun k => exp (at_ x [n; k]))) - at_ x [n; Z.to_nat (nth n (map r_label l) 0%Z)] = nth n (map term l) 0).
    { intros n Hn. destruct (nth_error l n) as [r|] eqn:Er; [|apply nth_error_None in Er; lia].
      assert (Fr : Forall (fits a h) [r]) by (constructor; [rewrite Forall_forall in F; apply F; eapply nth_error_In; exact Er|constructor]).
      destruct (forward_pair a h net l [r] n 0 r (agree_evaluation _ _ _ Ev) F Fr Er eq_refl) as (raw1 & raw2 & o1 & o2 & _ & G1 & G2 & (_ & A1 & _) & (_ & A2 & L2) & Ar).
      rewrite E in G1. injection G1 as <-. cbn [fst] in A1.
      assert (At : forall k, at_ x [n; k] = at_ (fst o2) [0%nat; k]).
      { intros k. rewrite A1, A2. unfold mask_at. rewrite Er. cbn [nth_error]. now rewrite Ar. }
      assert (Et : nth n (map term l) 0 = snd o2).
      { rewrite (nth_indep _ 0 (term r)) by (rewrite map_length; exact Hn). rewrite map_nth. rewrite (nth_error_nth l n r Er). unfold term. rewrite G2. now destruct o2. }
      rewrite Et, L2. cbn [List.length map]. change (INR 1) with 1. unfold sum_n at 2. cbn [seq fold_right nth].
      rewrite (nth_indep _ 0%Z (r_label r)) by (rewrite map_length; exact Hn). rewrite (map_nth r_label), (nth_error_nth l n r Er).
      rewrite (sum_n_ext (width h) _ (fun k => exp (at_ (fst o2) [0%nat; k]))) by (intros k _; now rewrite At). rewrite At. field. }
    clear - S. rewrite (sum_n_ext _ _ _ S). clear S. unfold sum_n. rewrite <- (map_length term l). generalize (map term l). clear. intros v.
    assert (G : forall k, fold_right (fun n s => nth (n - k) v 0 + s) 0 (seq k (List.length v)) = fold_right Rplus 0 v).
    { induction v as [|y v IH]; intros k; [reflexivity|]. cbn [List.length seq fold_right]. rewrite Nat.sub_diag. cbn [nth]. f_equal. rewrite <- (IH (S k)).
      assert (Q : forall q m, (forall n, In n q -> (S k <= n)%nat) -> fold_right (fun n s => nth (n - k) (y :: v) 0 + s) m q = fold_right (fun n s => nth (n - S k) v 0 + s) m q).
      { induction q as [|n q IHq]; intros m Hq; [reflexivity|]. cbn [fold_right]. rewrite IHq by (intros n0 Hn0; apply Hq; now right). f_equal.
        specialize (Hq n (or_introl eq_refl)). replace (n - k)%nat with (S (n - S k)) by lia. reflexivity. }
      apply Q. intros n Hn. apply in_seq in Hn. lia. }
    specialize (G 0%nat). rewrite <- G. apply (f_equal (fun f => fold_right f 0 (seq 0 (List.length v)))).
    apply functional_extensionality. intros n. apply functional_extensionality. intros s. now rewrite Nat.sub_0_r.
Qed.
Print Assumptions C78_loss.
Definition zero_linear : linear := MkLinear (fun _ _ => 0) (fun _ => 0).
Definition zero_norm : norm := MkNorm (fun _ => 0) (fun _ => 0).
(** A network with one block of each kind that drops nothing; switching one factor off leaves
    evaluation mode. *)
Definition some_attention (m : list nat -> R) : attention := MkAttention (fun _ => MkHead zero_linear zero_linear zero_linear m) zero_linear (fun _ => 1).
Definition block_net (m : list nat -> R) : network := MkNet zero [MkEnc (some_attention m) (MkFF zero_linear zero_linear (fun _ => 1)) zero_norm zero_norm]
  (MkState (MkConv1 (fun _ _ _ => 0) (fun _ => 0)) (MkConv1 (fun _ _ _ => 0) (fun _ => 0)) (MkConv2 (fun _ _ _ _ => 0) (fun _ => 0)) (MkConv2 (fun _ _ _ _ => 0) (fun _ => 0)) zero_linear zero_linear zero_linear)
  [MkDec (some_attention (fun _ => 1)) (some_attention (fun _ => 1)) (MkFF zero_linear zero_linear (fun _ => 1)) zero_norm zero_norm zero_norm] zero_norm (fun _ => zero_linear) (fun x => x).
Example C78_example : evaluation (block_net (fun _ => 1)) /\ ~ evaluation (block_net (fun i => if (nth 0 i 0 =? 0)%nat then 0 else 1)).
Proof.
  split.
  - split; repeat constructor.
  - intros [E _]. apply Forall_inv in E as [[E _] _]. specialize (E 0%nat [0%nat]). cbn in E. lra.
Qed.

(** ** C79 *)
Theorem C79_masked : forall a net h l x loss n k r, Forall (fits a h) l -> forward a net h l = Ok (x, loss) -> nth_error l n = Some r -> (k < width h)%nat ->
  nth k (r_mask r) 0%Z = 0%Z -> at_ x [n; k] = - 1000000000.
Proof.
  intros a net h l x loss n k r F E I Hk M. assert (N : l <> []) by (intros ->; discriminate E).
  destruct (forward_ok a h net l N F) as (raw & o & _ & G & _ & A & _). rewrite E in G. injection G as <-. cbn [fst] in A. rewrite A. unfold mask_at. now rewrite I, M.
Qed.
Print Assumptions C79_masked.
(** The allowed actions keep the network's own output: it does not depend on the mask. *)
Definition with_mask (m : list Z) (r : sample) : sample := MkSample (r_tokens r) (r_state r) m (r_label r) (r_player r).
Theorem C79_unmasked : forall a net h r m x loss x' loss' k, fits a h r -> fits a h (with_mask m r) ->
  forward a net h [r] = Ok (x, loss) -> forward a net h [with_mask m r] = Ok (x', loss') -> (k < width h)%nat ->
  nth k (r_mask r) 0%Z = 1%Z -> nth k m 0%Z = 1%Z -> at_ x [0%nat; k] = at_ x' [0%nat; k].
Proof.
  intros a net h r m x loss x' loss' k F F' E E' Hk M M'.
  destruct (forward_like a h net [r] [with_mask m r] 0 0 r (with_mask m r)) as (raw & raw' & o & o' & _ & G & G' & (_ & A & _) & (_ & A' & _) & Ar); [apply agree_self|now constructor|now constructor|reflexivity..|].
  rewrite E in G. injection G as <-. rewrite E' in G'. injection G' as <-. cbn [fst] in A, A'.
  rewrite A, A'. unfold mask_at. cbn [nth_error with_mask r_mask]. rewrite M, M'. cbn [Z.eqb]. apply Ar.
Qed.
Print Assumptions C79_unmasked.
(** As long as some allowed logit exceeds -10^9, the best action is an allowed one. *)
Theorem C79_choice : forall a net h l x loss n k0 k r, Forall (fits a h) l -> forward a net h l = Ok (x, loss) -> nth_error l n = Some r -> (k0 < width h)%nat -> (k < width h)%nat ->
  nth k0 (r_mask r) 0%Z = 1%Z -> at_ x [n; k0] > - 1000000000 -> (forall j, (j < width h)%nat -> at_ x [n; j] <= at_ x [n; k]) -> nth k (r_mask r) 0%Z = 1%Z.
Proof.
  intros a net h l x loss n k0 k r F E I H0 Hk M0 L0 Best. assert (Fr : fits a h r) by (rewrite Forall_forall in F; apply F; eapply nth_error_In; exact I).
  destruct Fr as (_ & _ & _ & _ & _ & _ & _ & Lm & Bin & _). rewrite Forall_forall in Bin. destruct (Bin (nth k (r_mask r) 0%Z)) as [M|M]; [apply nth_In; lia| |exact M].
  exfalso. pose proof (C79_masked _ _ _ _ _ _ _ _ _ F E I Hk M) as V. specialize (Best k0 H0). lra.
Qed.
Print Assumptions C79_choice.
Lemma sum_n_pos n f : (0 < n)%nat -> (forall k, 0 < f k) -> 0 < sum_n n f.
Proof.
  intros Hn Hf. unfold sum_n. assert (G : forall l, 0 <= fold_right (fun k x => f k + x) 0 l) by (induction l as [|k l IH]; cbn [fold_right]; [lra|specialize (Hf k); lra]).
  destruct n as [|n]; [lia|]. cbn [seq fold_right]. specialize (Hf 0%nat). specialize (G (seq 1 n)). lra.
Qed.
Lemma sum_n_ge n f k : (k < n)%nat -> (forall j, 0 <= f j) -> f k <= sum_n n f.
Proof.
  intros Hk Hf. unfold sum_n. assert (I : In k (seq 0 n)) by (apply in_seq; lia). revert I. generalize (seq 0 n). intros l.
  assert (G : forall l, 0 <= fold_right (fun k x => f k + x) 0 l) by (induction l0 as [|j l0 IH]; cbn [fold_right]; [lra|specialize (Hf j); lra]).
  induction l as [|j l IH]; intros I; [contradiction|]. cbn [fold_right]. destruct I as [-> |I]; [specialize (G l); lra|]. specialize (IH I). specialize (Hf j). lra.
Qed.
Lemma sum_n_le n f b : (forall k, (k < n)%nat -> f k <= b) -> sum_n n f <= INR n * b.
Proof.
  intros H. unfold sum_n. assert (G : forall l, (forall k, In k l -> f k <= b) -> fold_right (fun k x => f k + x) 0 l <= INR (List.length l) * b).
  { induction l as [|k l IH]; intros Hl; [cbn; lra|]. cbn [fold_right List.length]. rewrite S_INR. specialize (IH (fun k Hk => Hl k (or_intror Hk))). specialize (Hl k (or_introl eq_refl)). lra. }
  specialize (G (seq 0 n)). rewrite seq_length in G. apply G. intros k Hk. apply in_seq in Hk. apply H. lia.
Qed.
Lemma width_pos h : (0 < width h)%nat.
Proof. destruct h; cbn; lia. Qed.
Lemma lse_ge w v k : (k < w)%nat -> v k <= ln (sum_n w (fun j => exp (v j))).
Proof.
  intros Hk. rewrite <- (ln_exp (v k)) at 1. pose proof (sum_n_ge w (fun j => exp (v j)) k Hk (fun j => Rlt_le _ _ (exp_pos _))) as G. cbv beta in G.
  destruct G as [G|G]; [left; apply ln_increasing; [apply exp_pos|exact G]|right; now rewrite <- G].
Qed.
Lemma lse_le w v b : (0 < w)%nat -> (forall k, (k < w)%nat -> v k <= b) -> ln (sum_n w (fun j => exp (v j))) <= ln (INR w) + b.
Proof.
  intros Hw H. assert (Pw : 0 < INR w) by (apply lt_0_INR; exact Hw). rewrite <- (ln_exp b), <- ln_mult by (auto using exp_pos).
  assert (G : sum_n w (fun j => exp (v j)) <= INR w * exp b).
  { apply sum_n_le. intros k Hk. specialize (H k Hk). destruct H as [H|H]; [left; now apply exp_increasing|right; now rewrite H]. }
  destruct G as [G|G]; [left; apply ln_increasing; [apply sum_n_pos; [exact Hw|intros; apply exp_pos]|exact G]|right; now rewrite G].
Qed.
(** The loss of one sample is never negative, and at least the gap between any logit and
    the logit of the label. *)
Theorem C79_loss : forall a net h r x loss k, fits a h r -> forward a net h [r] = Ok (x, loss) -> (k < width h)%nat ->
  0 <= loss /\ at_ x [0%nat; k] - at_ x [0%nat; Z.to_nat (r_label r)] <= loss.
Proof.
  intros a net h r x loss k F E Hk. destruct (forward_ok a h net [r]) as (raw & o & _ & G & _ & _ & Ls); [discriminate|now constructor|]. rewrite E in G. injection G as <-. cbn [fst snd] in Ls.
  cbn [List.length map] in Ls. change (INR 1) with 1 in Ls. unfold sum_n at 1 in Ls. cbn [seq fold_right nth] in Ls.
  destruct F as (_ & _ & _ & _ & _ & _ & _ & _ & _ & _ & Hl).
  pose proof (lse_ge (width h) (fun j => at_ x [0%nat; j]) k Hk) as G1. pose proof (lse_ge (width h) (fun j => at_ x [0%nat; j]) (Z.to_nat (r_label r)) ltac:(lia)) as G2. cbv beta in G1, G2. lra.
Qed.
Print Assumptions C79_loss.

(** ** C80 *)
(** With an allowed label, the loss of a sample is at most ln(width) plus the spread [d]
    of the allowed logits. *)
Theorem C80_bound_partial : forall a net h r x loss d, fits a h r -> nth (Z.to_nat (r_label r)) (r_mask r) 0%Z = 1%Z -> forward a net h [r] = Ok (x, loss) -> 0 <= d ->
  (forall j k, (j < width h)%nat -> (k < width h)%nat -> nth j (r_mask r) 0%Z = 1%Z -> nth k (r_mask r) 0%Z = 1%Z -> at_ x [0%nat; j] <= at_ x [0%nat; k] + d) ->
  (forall j, (j < width h)%nat -> nth j (r_mask r) 0%Z = 1%Z -> - 1000000000 <= at_ x [0%nat; j]) ->
  loss <= ln (INR (width h)) + d.
Proof.
  intros a net h r x loss d F M E Hd Sp Lo. assert (F1 : Forall (fits a h) [r]) by now constructor.
  destruct (forward_ok a h net [r]) as (raw & o & _ & G & _ & _ & Ls); [discriminate|exact F1|]. rewrite E in G. injection G as <-. cbn [fst snd] in Ls.
  cbn [List.length map] in Ls. change (INR 1) with 1 in Ls. unfold sum_n at 1 in Ls. cbn [seq fold_right nth] in Ls.
  pose proof F as (_ & _ & _ & _ & _ & _ & _ & Lm & Bin & _ & Hl). rewrite Forall_forall in Bin.
  assert (Hy : (Z.to_nat (r_label r) < width h)%nat) by lia.
  pose proof (lse_le (width h) (fun j => at_ x [0%nat; j]) (at_ x [0%nat; Z.to_nat (r_label r)] + d) (width_pos h)) as G. cbv beta in G.
  assert (P : forall k, (k < width h)%nat -> at_ x [0%nat; k] <= at_ x [0%nat; Z.to_nat (r_label r)] + d).
  { intros k Hk. destruct (Bin (nth k (r_mask r) 0%Z)) as [Q|Q]; [apply nth_In; lia| |now apply Sp].
    rewrite (C79_masked _ _ _ _ _ _ 0 k r F1 E eq_refl Hk Q). specialize (Lo _ Hy M). lra. }
  specialize (G P). lra.
Qed.
Print Assumptions C80_bound_partial.

(** With labels that are not allowed - which rounds do produce, see C46 and C47 - the loss
    of a single sample is 10^9 or more although all allowed logits are equal. *)
Definition zero_net : network := MkNet zero [] (MkState (MkConv1 (fun _ _ _ => 0) (fun _ => 0)) (MkConv1 (fun _ _ _ => 0) (fun _ => 0)) (MkConv2 (fun _ _ _ _ => 0) (fun _ => 0)) (MkConv2 (fun _ _ _ _ => 0) (fun _ => 0)) zero_linear zero_linear zero_linear) [] zero_norm (fun _ => zero_linear) (fun x => x).
Lemma sum_n_zero n f : (forall k, f k = 0) -> sum_n n f = 0.
Proof. intros H. unfold sum_n. generalize (seq 0 n). intros l. induction l as [|k l IH]; cbn [fold_right]; [reflexivity|]. rewrite H, IH. lra. Qed.
Theorem C80_refuted : exists r x loss, from_round TF Discard r /\ forward TF zero_net Discard [r] = Ok (x, loss) /\
  (forall k, (k < 37)%nat -> nth k (r_mask r) 0%Z = 1%Z -> at_ x [0%nat; k] = 0) /\ 1000000000 <= loss.
Proof.
  destruct (sample_exists ex_libs TF Discard real_round 0 (fun r => (nth (Z.to_nat (r_label r)) (r_mask r) 0 =? 0)%Z)) as (r & Fr & M); [vm_compute; reflexivity|]. apply Z.eqb_eq in M.
  pose proof (C52_samples_fit _ _ _ Fr) as F.
  destruct (forward_ok TF Discard zero_net [r]) as (raw & (x & loss) & (enc & _ & R) & E & _ & A & _); [discriminate|now constructor|]. cbn [fst] in A.
  assert (Z0 : forall k, at_ raw [0%nat; k] = 0).
  { intros k. unfold raw_logits in R. apply bind_ok in R as (x1 & _ & R). apply bind_ok in R as (x2 & _ & R). apply bind_ok in R as (x3 & _ & R). apply bind_ok in R as (u & _ & R).
    apply bind_ok in R as (v & _ & R). apply bind_ok in R as (w & _ & R). unfold Linear in R. apply bind_ok in R as (g & _ & R). injection R as <-. cbn [at_]. cbn [k_head zero_net zero_linear l_bias l_weight].
    rewrite sum_n_zero; [lra|]. intros e. lra. }
  assert (Al : forall k, nth k (r_mask r) 0%Z = 1%Z -> at_ x [0%nat; k] = 0) by (intros k Q; rewrite A; unfold mask_at; cbn [nth_error]; rewrite Q; cbn [Z.eqb]; apply Z0).
  exists r, x, loss. split; [exact Fr|]. split; [exact E|]. split; [intros k _; apply Al|].
  pose proof F as (_ & _ & _ & _ & _ & _ & _ & Lm & _ & I1 & Hl). apply (In_nth _ _ 0%Z) in I1 as (k & Hk & Q).
  destruct (C79_loss TF zero_net Discard r x loss k F E ltac:(lia)) as [_ G]. rewrite (Al k Q) in G.
  rewrite (C79_masked TF zero_net Discard [r] x loss 0 _ r) in G; [lra|now constructor|exact E|reflexivity|lia|exact M].
Qed.
Print Assumptions C80_refuted.
