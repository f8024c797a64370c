(** C138: what the weights of the heads act on.  Vocabulary: SpecHeads.v. *)
From Coq Require Import ZArith List Bool Reals Lia Lra PeanoNat.
From Verif Require Import Base VecLemmas RoundExamples Constants Tensor Network NetworkLemmas SpecNetwork NetworkForward PropsNetwork AttentionForward SpecHeads PropsOutputs.
Import ListNotations.
Open Scope R_scope.

(** Everything before the head *)
Definition hidden (a : agent) (net : network) (l : list sample) (enc : tensor) : res tensor :=
  x1 <- stack1 a l ;; x2 <- stack2 l ;; x3 <- stack3 l ;;
  x <- StateNet a (k_state net) x1 x2 x3 ;;
  x <- (match a with ORDERED => unsqueeze1 x | _ => Ok x end) ;;
  x <- foldM (fun x b => DecoderBlock a (k_gelu net) b enc x) x (k_dec net) ;;
  LayerNorm EMBD (k_ln net) x.
Lemma raw_hidden a h net l enc raw : raw_logits a h net l enc = Ok raw ->
  exists w y, hidden a net l enc = Ok w /\ Linear EMBD (width h) (k_head net h) w = Ok y /\ (match a with ORDERED => squeeze1 y | _ => Ok y end) = Ok raw.
Proof.
  intros R. unfold raw_logits in R. apply bind_ok in R as (x1 & E1 & R). apply bind_ok in R as (x2 & E2 & R). apply bind_ok in R as (x3 & E3 & R). apply bind_ok in R as (u & Eu & R).
  unfold hidden. rewrite E1, E2, E3. cbn [bind]. rewrite Eu. cbn [bind].
  destruct a; [apply bind_ok in R as (v & Ev & R); apply bind_ok in R as (w & Ew & R); exists w, raw; cbn [bind]; rewrite Ev; cbn [bind]; auto .. |].
  apply bind_ok in R as (u' & Eu' & R). apply bind_ok in R as (v & Ev & R). apply bind_ok in R as (w & Ew & R). apply bind_ok in R as (y & Ey & R). exists w, y. rewrite Eu'. cbn [bind]. rewrite Ev. cbn [bind]. auto.
Qed.
(** The scores before masking, for any heads, from the same vectors *)
Lemma raw_rows a h net l enc : exists g : nat -> nat -> R, forall heads raw, raw_logits a h (with_heads net heads) l enc = Ok raw ->
  forall n k, at_ raw [n; k] = l_bias (heads h) k + sum_n 64 (fun e => g n e * l_weight (heads h) k e).
Proof.
  destruct (hidden a net l enc) as [w|err] eqn:Hw.
  - exists (fun n e => match a, dims w with ORDERED, _ :: 1%nat :: _ :: _ => at_ w [n; 0%nat; e] | _, _ => at_ w [n; e] end).
    intros heads raw R n k. destruct (raw_hidden _ _ _ _ _ _ R) as (w' & y & Hw' & L & S). change (hidden a (with_heads net heads) l enc) with (hidden a net l enc) in Hw'. rewrite Hw in Hw'. injection Hw' as <-.
    unfold Linear in L. apply bind_ok in L as (t & G & L). injection L as <-. change EMBD with 64%nat in *.
    destruct a; try (injection S as <-; reflexivity).
    unfold squeeze1 in S. cbn [dims] in S. destruct (dims w) as [|b [|c dr]]; cbn [removelast app] in S.
    + discriminate S.
    + discriminate S.
    + destruct dr as [|d dr].
      * cbn [removelast app] in S. assert (W : width h <> 1%nat) by (destruct h; discriminate). destruct (width h) as [|[|wd]]; [|contradiction|]; injection S as <-; destruct c as [|[|c]]; reflexivity.
      * cbn [removelast app] in S. destruct c as [|[|c]]; injection S as <-; reflexivity.
  - exists (fun _ _ => 0). intros heads raw R. destruct (raw_hidden _ _ _ _ _ _ R) as (w' & y & Hw' & _). change (hidden a (with_heads net heads) l enc) with (hidden a net l enc) in Hw'. congruence.
Qed.

(** The heads of the other decisions have no influence at all, not even on errors. *)
Theorem C138_other : forall a h net heads l, heads h = k_head net h -> forward a (with_heads net heads) h l = forward a net h l.
Proof. intros a h net heads l E. unfold forward, encoder_forward, decoder_forward. cbn [with_heads k_embed k_enc k_state k_dec k_ln k_head k_gelu]. rewrite E. reflexivity. Qed.
Print Assumptions C138_other.
(** A score depends only on the weights of its own output, and on none if the action is not allowed. *)
Theorem C138_row : forall a h net heads l n r k, Forall (fits a h) l -> nth_error l n = Some r -> nth k (r_mask r) 0%Z <> 1%Z \/ same_row (k_head net h) (heads h) k -> (k < width h)%nat ->
  exists out loss out' loss', forward a net h l = Ok (out, loss) /\ forward a (with_heads net heads) h l = Ok (out', loss') /\ at_ out' [n; k] = at_ out [n; k].
Proof.
  intros a h net heads l n r k F I C Hk. pose proof (some_sample l n r I) as N.
  destruct (forward_ok a h net l N F) as (raw & (out & loss) & (enc & He & R) & E & _ & A & _). destruct (forward_ok a h (with_heads net heads) l N F) as (raw' & (out' & loss') & (enc' & He' & R') & E' & _ & A' & _).
  change (encoder_forward a (with_heads net heads) l) with (encoder_forward a net l) in He'. rewrite He in He'. injection He' as <-. cbn [fst] in A, A'. exists out, loss, out', loss'. do 2 (split; [assumption|]).
  rewrite A, A'. destruct (Z.eqb (mask_at l n k) 0) eqn:M; [reflexivity|]. destruct C as [C|[Cb Cw]].
  - exfalso. unfold mask_at in M. rewrite I in M. assert (Fr : fits a h r) by (rewrite Forall_forall in F; apply F; eapply nth_error_In; exact I). destruct Fr as (_ & _ & _ & _ & _ & _ & _ & Lm & Bin & _).
    rewrite Forall_forall in Bin. destruct (Bin (nth k (r_mask r) 0%Z)) as [Q|Q]; [apply nth_In; lia| |contradiction]. rewrite Q in M. discriminate M.
  - destruct (raw_rows a h net l enc) as (g & G). rewrite (G heads raw' R'). replace net with (with_heads net (k_head net)) in R by (destruct net; reflexivity). rewrite (G _ _ R), Cb.
    f_equal. apply sum_n_ext. intros e He'. now rewrite Cw.
Qed.
Print Assumptions C138_row.
(** So the loss of a batch, and what is learned from it, depends only on the outputs that are allowed in one of its
    samples. *)
Theorem C138_loss : forall a h net heads l, l <> [] -> Forall (fits a h) l -> (forall k, (k < width h)%nat -> ever_allowed l k -> same_row (k_head net h) (heads h) k) ->
  exists out loss out', forward a net h l = Ok (out, loss) /\ forward a (with_heads net heads) h l = Ok (out', loss).
Proof.
  intros a h net heads l N F S. destruct (forward_ok a h net l N F) as (raw & (out & loss) & _ & E & _ & _ & Ls). destruct (forward_ok a h (with_heads net heads) l N F) as (raw' & (out' & loss') & _ & E' & _ & _ & Ls').
  cbn [fst snd] in Ls, Ls'. exists out, loss, out'. split; [exact E|]. rewrite E'. f_equal. f_equal. rewrite Ls, Ls'. f_equal. apply sum_n_ext. intros n Hn.
  destruct (nth_error l n) as [r|] eqn:I; [|apply nth_error_None in I; lia].
  assert (A : forall k, (k < width h)%nat -> at_ out' [n; k] = at_ out [n; k]).
  { intros k Hk. destruct (C138_row a h net heads l n r k F I) as (o & ls & o' & ls' & Eo & Eo' & G); [|exact Hk|].
    - destruct (Z.eq_dec (nth k (r_mask r) 0%Z) 1) as [M|M]; [right|now left]. apply S; [exact Hk|]. exists r. split; [eapply nth_error_In; exact I|exact M].
    - rewrite E in Eo. rewrite E' in Eo'. injection Eo as <- <-. injection Eo' as <- <-. exact G. }
  assert (Fr : fits a h r) by (rewrite Forall_forall in F; apply F; eapply nth_error_In; exact I). destruct Fr as (_ & _ & _ & _ & _ & _ & _ & _ & _ & _ & Hl).
  rewrite (sum_n_ext (width h) (fun k => exp (at_ out' [n; k])) (fun k => exp (at_ out [n; k]))) by (intros k Hk; now rewrite A). rewrite A; [reflexivity|].
  rewrite (nth_indep _ 0%Z (r_label r)) by (rewrite map_length; exact Hn). rewrite map_nth, (nth_error_nth _ _ _ I). lia.
Qed.
Print Assumptions C138_loss.
(** The bias of an allowed output is added to its score: no output is without influence where it is allowed. *)
Theorem C138_bias : forall a h net c l n r k, Forall (fits a h) l -> nth_error l n = Some r -> nth k (r_mask r) 0%Z = 1%Z ->
  exists out loss out' loss', forward a net h l = Ok (out, loss) /\ forward a (with_heads net (fun j => raised (k_head net j) k c)) h l = Ok (out', loss') /\ at_ out' [n; k] = at_ out [n; k] + c.
Proof.
  intros a h net c l n r k F I M. set (heads := fun j => raised (k_head net j) k c). pose proof (some_sample l n r I) as N.
  destruct (forward_ok a h net l N F) as (raw & (out & loss) & (enc & He & R) & E & _ & A & _). destruct (forward_ok a h (with_heads net heads) l N F) as (raw' & (out' & loss') & (enc' & He' & R') & E' & _ & A' & _).
  change (encoder_forward a (with_heads net heads) l) with (encoder_forward a net l) in He'. rewrite He in He'. injection He' as <-. cbn [fst] in A, A'. exists out, loss, out', loss'. do 2 (split; [assumption|]).
  rewrite A, A'. unfold mask_at. rewrite I, M. cbn [Z.eqb]. destruct (raw_rows a h net l enc) as (g & G). rewrite (G heads raw' R'). replace net with (with_heads net (k_head net)) in R by (destruct net; reflexivity). rewrite (G _ _ R).
  unfold heads, raised. cbn [l_bias l_weight]. rewrite Nat.eqb_refl. lra.
Qed.
Print Assumptions C138_bias.
(** A discard of a round, with the bias of an output changed that is not allowed: the hypotheses of C138_loss hold,
    the heads differ. *)
Example C138_example : exists r k k0, fits TF Discard r /\ (k < 37)%nat /\ nth k (r_mask r) 0%Z = 0%Z /\ (k0 < 37)%nat /\ nth k0 (r_mask r) 0%Z = 1%Z /\
  ~ same_row (k_head zero_net Discard) (raised (k_head zero_net Discard) k 1) k /\
  forall j, (j < width Discard)%nat -> ever_allowed [r] j -> same_row (k_head zero_net Discard) (raised (k_head zero_net Discard) k 1) j.
Proof.
  destruct (sample_exists ex_libs TF Discard real_round 0 (fun r => (nth (Z.to_nat (r_label r)) (r_mask r) 0 =? 0)%Z)) as (r & Fr & M); [vm_compute; reflexivity|]. apply Z.eqb_eq in M.
  pose proof (C52_samples_fit _ _ _ Fr) as F. pose proof F as (_ & _ & _ & _ & _ & _ & _ & Lm & _ & In1 & Hl). cbn [width] in Hl. apply (In_nth _ _ 0%Z) in In1 as (k0 & H0 & M0). rewrite Lm in H0.
  exists r, (Z.to_nat (r_label r)), k0. split; [exact F|]. split; [lia|]. split; [exact M|]. split; [exact H0|]. split; [exact M0|]. split.
  - intros [B _]. unfold raised in B. cbn [l_bias] in B. rewrite Nat.eqb_refl in B. lra.
  - intros j _ (r' & [<- |[]] & Mj). split; [|reflexivity]. unfold raised. cbn [l_bias]. destruct (Nat.eqb_spec j (Z.to_nat (r_label r))) as [-> |]; [congruence|reflexivity].
Qed.
(** The weights of the fourteen outputs of the reaction head that no round allows (C128) have no influence on the
    loss of any batch made of rounds, so there is nothing they could learn from. *)
Theorem C138_never : forall a net heads l, l <> [] -> Forall (from_round a Post) l ->
  (forall k, (k < 154)%nat -> ~ In (Z.of_nat k) [65; 66; 67; 69; 70; 73; 75; 76; 79; 81; 82; 110; 111; 112]%Z -> same_row (k_head net Post) (heads Post) k) ->
  exists out loss out', forward a net Post l = Ok (out, loss) /\ forward a (with_heads net heads) Post l = Ok (out', loss).
Proof.
  intros a net heads l N F S. apply C138_loss; [exact N|eapply Forall_impl; [|exact F]; intros r; apply C52_samples_fit|].
  intros k Hk (r & I & M). apply S; [exact Hk|]. intros B. rewrite Forall_forall in F. destruct (F r I) as (L & go & evs & half & tokens & t & H & T & Ir).
  pose proof (C128_never_partial L go evs half tokens a t H T) as Q. rewrite Forall_forall in Q. destruct (Q r Ir (Z.of_nat k) B) as [Q' _]. rewrite Nat2Z.id in Q'. congruence.
Qed.
Print Assumptions C138_never.
