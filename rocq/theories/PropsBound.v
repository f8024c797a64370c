(** C137: the scores are bounded by the weights of the last two layers.  [reach]: SpecBound.v. *)
From Coq Require Import ZArith List Bool Reals Lia Lra PeanoNat.
From Verif Require Import Base VecLemmas RoundExamples EncoderSum EncoderSumLemmas Constants Tensor Network NetworkLemmas SpecNetwork NetworkForward PropsNetwork SpecAttention AttentionLemmas AttentionForward SpecBound.
Import ListNotations.
Open Scope R_scope.

Lemma total_ge0 n f : (forall k, 0 <= f k) -> 0 <= total n f.
Proof. intros H. unfold total. generalize (seq 0 n). intros l. induction l as [|k l IH]; cbn [map fold_right]; [lra|]. specialize (H k). lra. Qed.
Lemma total_mono n f g : (forall k, (k < n)%nat -> f k <= g k) -> total n f <= total n g.
Proof.
  intros H. unfold total. assert (G : forall k, In k (seq 0 n) -> f k <= g k) by (intros k Hk; apply in_seq in Hk; apply H; lia). revert G. generalize (seq 0 n). intros l.
  induction l as [|k l IH]; intros G; cbn [map fold_right]; [lra|]. pose proof (G k (or_introl eq_refl)). specialize (IH (fun j Hj => G j (or_intror Hj))). lra.
Qed.
Lemma total_abs n f : Rabs (total n f) <= total n (fun k => Rabs (f k)).
Proof.
  unfold total. generalize (seq 0 n). intros l. induction l as [|k l IH]; cbn [map fold_right]; [rewrite Rabs_R0; lra|]. pose proof (Rabs_triang (f k) (fold_right Rplus 0 (map f l))). lra.
Qed.
Lemma normed_bound p f d : (d < 64)%nat -> Rabs (normed p f d) <= 8 * Rabs (n_scale p d) + Rabs (n_shift p d).
Proof.
  intros Hd. unfold normed. set (m := average f). set (v := variance f).
  assert (Q : (f d - m) * (f d - m) <= 64 * v).
  { unfold v, variance. fold m. unfold average. pose proof (sum_n_ge 64 (fun e => (f e - m) * (f e - m)) d Hd (fun e => Rle_0_sqr (f e - m))) as G. cbv beta in G. rewrite sum_total in G. lra. }
  assert (V0 : 0 <= v). { pose proof (Rle_0_sqr (f d - m)) as G. unfold Rsqr in G. lra. }
  assert (S : 0 < sqrt (v + 1 / 100000)) by (apply sqrt_lt_R0; lra).
  assert (B : Rabs ((f d - m) / sqrt (v + 1 / 100000)) <= 8).
  { unfold Rdiv. rewrite Rabs_mult, (Rabs_pos_eq (/ _)) by (left; now apply Rinv_0_lt_compat). apply (Rmult_le_reg_r (sqrt (v + 1 / 100000))); [exact S|].
    rewrite Rmult_assoc, Rinv_l, Rmult_1_r by lra. rewrite <- sqrt_Rsqr_abs. replace 8 with (sqrt 64) by (replace 64 with (8 * 8) by lra; apply sqrt_square; lra).
    rewrite <- sqrt_mult by lra. apply sqrt_le_1_alt. unfold Rsqr. lra. }
  eapply Rle_trans; [apply Rabs_triang|]. rewrite Rabs_mult. apply Rplus_le_compat_r. apply Rmult_le_compat_r; [apply Rabs_pos|exact B].
Qed.
Lemma last_two net h x y z pre k : LayerNorm EMBD (k_ln net) x = Ok y -> Linear EMBD (width h) (k_head net h) y = Ok z -> Rabs (at_ z (pre ++ [k])) <= reach net h k.
Proof.
  intros E1 E2. unfold LayerNorm in E1. apply bind_ok in E1 as (g & _ & E1). injection E1 as <-. unfold Linear in E2. apply bind_ok in E2 as (g' & _ & E2). injection E2 as <-. cbn [at_].
  rewrite last_last, removelast_last. change EMBD with 64%nat. unfold reach. eapply Rle_trans; [apply Rabs_triang|]. apply Rplus_le_compat_l. rewrite sum_total. eapply Rle_trans; [apply total_abs|]. apply total_mono.
  intros e He. rewrite Rabs_mult. apply Rmult_le_compat_r; [apply Rabs_pos|]. rewrite last_last, removelast_last.
  eapply Rle_trans; [|exact (normed_bound (k_ln net) (fun e0 => at_ x (pre ++ [e0])) e He)]. right. f_equal.
  exact (normed_at (k_ln net) (fun e0 => at_ x (pre ++ [e0])) (fun e0 => at_ x (pre ++ [e0])) e (fun _ _ => eq_refl) He).
Qed.
Lemma raw_bound a h net l enc raw n k : raw_logits a h net l enc = Ok raw -> Rabs (at_ raw [n; k]) <= reach net h k.
Proof.
  intros R. unfold raw_logits in R. apply bind_ok in R as (x1 & _ & R). apply bind_ok in R as (x2 & _ & R). apply bind_ok in R as (x3 & _ & R). apply bind_ok in R as (u & _ & R).
  assert (O : a = ORDERED \/ a <> ORDERED) by (destruct a; auto; right; discriminate). destruct O as [-> |N].
  - apply bind_ok in R as (u' & _ & R). apply bind_ok in R as (v & _ & R). apply bind_ok in R as (w & Ew & R). apply bind_ok in R as (y & Ey & R).
    unfold squeeze1 in R. destruct (dims y) as [|b [|c dr]]; try discriminate R. destruct c as [|[|c]]; injection R as <-.
    + exact (last_two net h v w y [n] k Ew Ey).
    + cbn [at_]. exact (last_two net h v w y [n; 0%nat] k Ew Ey).
    + exact (last_two net h v w y [n] k Ew Ey).
  - assert (G : exists v w, LayerNorm EMBD (k_ln net) v = Ok w /\ Linear EMBD (width h) (k_head net h) w = Ok raw).
    { destruct a; try contradiction; apply bind_ok in R as (v & _ & R); apply bind_ok in R as (w & Ew & R); eauto. }
    destruct G as (v & w & Ew & El). exact (last_two net h v w raw [n] k Ew El).
Qed.

(** The score of an allowed action of any sample is within [reach], whatever the tokens, the features and the
    dropout, and whatever the other layers are. *)
Theorem C137_bound : forall a h net l out loss n r k, Forall (fits a h) l -> forward a net h l = Ok (out, loss) -> nth_error l n = Some r -> nth k (r_mask r) 0%Z = 1%Z ->
  Rabs (at_ out [n; k]) <= reach net h k.
Proof.
  intros a h net l out loss n r k F E I M. destruct (forward_ok a h net l (some_sample l n r I) F) as (raw & o & (enc & _ & R) & E' & D & A & _). rewrite E in E'. injection E' as <-. cbn [fst] in A, D.
  rewrite A. unfold mask_at. rewrite I, M. cbn [Z.eqb]. exact (raw_bound a h net l enc raw n k R).
Qed.
Print Assumptions C137_bound.
(** So if these weights are not enormous, the best action is allowed, for every sample there can be. *)
Theorem C137_choice : forall a h net l out loss n r k, (forall j, (j < width h)%nat -> reach net h j < 1000000000) -> Forall (fits a h) l -> forward a net h l = Ok (out, loss) -> nth_error l n = Some r ->
  (k < width h)%nat -> (forall j, (j < width h)%nat -> at_ out [n; j] <= at_ out [n; k]) -> nth k (r_mask r) 0%Z = 1%Z.
Proof.
  intros a h net l out loss n r k B F E I Hk Best. assert (Fr : fits a h r) by (rewrite Forall_forall in F; apply F; eapply nth_error_In; exact I).
  destruct Fr as (_ & _ & _ & _ & _ & _ & _ & Lm & _ & In1 & _). apply (In_nth _ _ 0%Z) in In1 as (k0 & H0 & M0). rewrite Lm in H0.
  apply (C79_choice a net h l out loss n k0 k r F E I H0 Hk M0); [|exact Best]. pose proof (C137_bound _ _ _ _ _ _ _ _ _ F E I M0) as G. specialize (B k0 H0).
  pose proof (Rle_abs (- at_ out [n; k0])) as G'. rewrite Rabs_Ropp in G'. lra.
Qed.
Print Assumptions C137_choice.
(** And the loss of a sample with an allowed label is bounded, by the same number for all samples. *)
Theorem C137_loss : forall a h net r out loss c, (forall j, (j < width h)%nat -> reach net h j <= c) -> c <= 1000000000 -> fits a h r -> nth (Z.to_nat (r_label r)) (r_mask r) 0%Z = 1%Z ->
  forward a net h [r] = Ok (out, loss) -> loss <= ln (INR (width h)) + 2 * c.
Proof.
  intros a h net r out loss c B C F M E. assert (F1 : Forall (fits a h) [r]) by now constructor.
  assert (G : forall j, (j < width h)%nat -> nth j (r_mask r) 0%Z = 1%Z -> - c <= at_ out [0%nat; j] <= c).
  { intros j Hj Mj. pose proof (C137_bound a h net [r] out loss 0 r j F1 E eq_refl Mj) as G. specialize (B j Hj).
    pose proof (Rle_abs (at_ out [0%nat; j])). pose proof (Rle_abs (- at_ out [0%nat; j])) as G'. rewrite Rabs_Ropp in G'. lra. }
  assert (C0 : 0 <= c). { pose proof F as (_ & _ & _ & _ & _ & _ & _ & _ & _ & _ & Hl). pose proof (G (Z.to_nat (r_label r)) ltac:(lia) M). lra. }
  apply (C80_bound_partial a net h r out loss (2 * c) F M E); [lra| |].
  - intros j k Hj Hk Mj Mk. pose proof (G j Hj Mj). pose proof (G k Hk Mk). lra.
  - intros j Hj Mj. pose proof (G j Hj Mj). lra.
Qed.
Print Assumptions C137_loss.

(** A network with one weight [w] per action, and the bias [c] *)
Definition plain_net (c w : R) : network :=
  MkNet zero [] (k_state zero_net) [] (MkNorm (fun _ => 1) (fun _ => 0)) (fun _ => MkLinear (fun _ e => if Nat.eqb e 0 then w else 0) (fun _ => c)) (fun x => x).
Lemma plain_reach c w h k : reach (plain_net c w) h k = Rabs c + 8 * Rabs w.
Proof.
  unfold reach, total. cbn [k_head k_ln plain_net l_bias l_weight n_scale n_shift seq map fold_right Nat.eqb]. rewrite Rabs_R1, Rabs_R0. ring.
Qed.
(** Scores within 8 for a sample of a round *)
Example C137_example : (forall k, reach (plain_net 0 1) Discard k = 8) /\
  exists r out loss, from_round TF Discard r /\ fits TF Discard r /\ nth (Z.to_nat (r_label r)) (r_mask r) 0%Z = 1%Z /\ forward TF (plain_net 0 1) Discard [r] = Ok (out, loss).
Proof.
  split; [intros k; rewrite plain_reach, Rabs_R0, Rabs_R1; ring|].
  destruct (sample_exists ex_libs TF Discard small_round 4 (fun r => (nth (Z.to_nat (r_label r)) (r_mask r) 0 =? 1)%Z)) as (r & Fr & M); [vm_compute; reflexivity|]. apply Z.eqb_eq in M.
  pose proof (C52_samples_fit _ _ _ Fr) as F. destruct (C52_shapes TF (plain_net 0 1) Discard [r] ltac:(discriminate) ltac:(now constructor)) as (out & loss & E & _). exists r, out, loss. auto.
Qed.
(** Without the condition on the weights the best action need not be allowed. *)
Theorem C137_needed : exists r out loss k, from_round TF Discard r /\ forward TF (plain_net (-2000000000) 0) Discard [r] = Ok (out, loss) /\ (k < 37)%nat /\
  (forall j, (j < 37)%nat -> at_ out [0%nat; j] <= at_ out [0%nat; k]) /\ nth k (r_mask r) 0%Z = 0%Z.
Proof.
  destruct (sample_exists ex_libs TF Discard real_round 0 (fun r => (nth (Z.to_nat (r_label r)) (r_mask r) 0 =? 0)%Z)) as (r & Fr & M); [vm_compute; reflexivity|]. apply Z.eqb_eq in M.
  pose proof (C52_samples_fit _ _ _ Fr) as F. set (net := plain_net (-2000000000) 0).
  destruct (forward_ok TF Discard net [r]) as (raw & (out & loss) & (enc & _ & R) & E & _ & A & _); [discriminate|now constructor|]. cbn [fst] in A.
  assert (Z0 : forall k, at_ raw [0%nat; k] = -2000000000).
  { intros k. unfold raw_logits in R. apply bind_ok in R as (x1 & _ & R). apply bind_ok in R as (x2 & _ & R). apply bind_ok in R as (x3 & _ & R). apply bind_ok in R as (u & _ & R).
    apply bind_ok in R as (v & _ & R). apply bind_ok in R as (w & _ & R). unfold Linear in R. apply bind_ok in R as (g & _ & R). injection R as <-. cbn [at_]. cbn [k_head net plain_net l_bias l_weight].
    rewrite sum_n_zero; [lra|]. intros e. destruct (Nat.eqb e 0); lra. }
  pose proof F as (_ & _ & _ & _ & _ & _ & _ & Lm & _ & _ & Hl). exists r, out, loss, (Z.to_nat (r_label r)). split; [exact Fr|]. split; [exact E|]. split; [cbn [width] in Hl; lia|]. split; [|exact M].
  intros j _. rewrite !A. unfold mask_at. cbn [nth_error]. rewrite M. cbn [Z.eqb]. destruct (Z.eqb _ 0); [lra|]. rewrite Z0. unfold MASKED. lra.
Qed.
Print Assumptions C137_needed.
