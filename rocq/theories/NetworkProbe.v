(** A network of the ordered agent that reads one column of the token embedding. *)
From Coq Require Import ZArith List Bool Reals String Lia Lra PeanoNat.
From Verif Require Import Base Constants SpecTokens Tensor Encoder EncoderLemmas EncoderSum Network NetworkLemmas SpecNetwork NetworkForward VecLemmas.
Import ListNotations.
Open Scope R_scope.

(** ** Sums *)
Lemma sum_n_S n f : sum_n (S n) f = sum_n n f + f n.
Proof.
  unfold sum_n. rewrite seq_S, fold_right_app. cbn [fold_right Nat.add]. rewrite Rplus_0_r.
  generalize (seq 0 n). intros l. induction l as [|a l IH]; cbn [fold_right]; [lra|]. rewrite IH. lra.
Qed.
Lemma sum_zero n f : (forall k, (k < n)%nat -> f k = 0) -> sum_n n f = 0.
Proof. induction n as [|n IH]; intros H; [reflexivity|]. rewrite sum_n_S, IH, H; [lra|lia|]. intros k K. apply H. lia. Qed.
Lemma sum_one n f j : (j < n)%nat -> (forall k, (k < n)%nat -> k <> j -> f k = 0) -> sum_n n f = f j.
Proof.
  induction n as [|n IH]; intros J H; [lia|]. rewrite sum_n_S. destruct (Nat.eq_dec j n) as [->|N].
  - rewrite sum_zero; [lra|]. intros k K. apply H; lia.
  - rewrite IH, (H n); [lra|lia|lia|lia|]. intros k K. apply H. lia.
Qed.
Lemma sum_const n c : sum_n n (fun _ => c) = INR n * c.
Proof. induction n as [|n IH]; [cbn; unfold sum_n; cbn; lra|]. rewrite sum_n_S, IH, S_INR. lra. Qed.
Lemma sum_scale n c f : sum_n n (fun k => c * f k) = c * sum_n n f.
Proof. induction n as [|n IH]; [unfold sum_n; cbn; lra|]. rewrite !sum_n_S, IH. lra. Qed.

(** ** The network *)
Definition zl : linear := MkLinear (fun _ _ => 0) (fun _ => 0).
Definition zn : norm := MkNorm (fun _ => 0) (fun _ => 0).
Definition no (_ : list nat) : R := 1.
Definition za : attention := MkAttention (fun _ => MkHead zl zl zl no) zl no.
Definition unit_linear (o e : nat) : linear := MkLinear (fun o' e' => if Nat.eqb o' o && Nat.eqb e' e then 1 else 0) (fun _ => 0).
Definition reading (d : nat) : attention := MkAttention (fun _ => MkHead zl zl (unit_linear 0 d) no) (unit_linear 0 0) no.
Definition zero_conv1 : conv1 := MkConv1 (fun _ _ _ => 0) (fun _ => 0).
Definition zero_conv2 : conv2 := MkConv2 (fun _ _ _ _ => 0) (fun _ => 0).
Definition zero_state : state_net := MkState zero_conv1 zero_conv1 zero_conv2 zero_conv2 zl zl zl.
Definition probe (w : weights) (d : nat) : network :=
  MkNet w [] zero_state [MkDec za (reading d) (MkFF zl zl no) zn zn zn] (MkNorm (fun _ => 1) (fun _ => 0))
    (fun _ => MkLinear (fun _ e => if Nat.eqb e 0 then 1 else 0) (fun _ => 0)) (fun x => x).

Lemma probe_evaluation w d : evaluation (probe w d).
Proof.
  assert (N : no_drop no) by (intros i; reflexivity). split; [constructor|]. constructor; [|constructor]. cbn [d_self d_cross d_ff f_drop].
  split; [|split; [|exact N]]; (split; [intros k; exact N|exact N]).
Qed.

(** ** Operations *)
Definition zero (x : tensor) : Prop := forall i, at_ x i = 0.

Lemma bind_ok {A B} (m : res A) (k : A -> res B) y : bind m k = Ok y -> exists x, m = Ok x /\ k x = Ok y.
Proof. destruct m as [x|]; [|discriminate]. cbn [bind]. eauto. Qed.
Lemma guard_ok b u : guard b = Ok u -> b = true.
Proof. destruct b; [reflexivity|discriminate]. Qed.

Lemma linear_inv nin nout p x y : Linear nin nout p x = Ok y ->
  dims y = removelast (dims x) ++ [nout] /\
  forall i, at_ y i = l_bias p (last i 0%nat) + sum_n nin (fun e => at_ x (removelast i ++ [e]) * l_weight p (last i 0%nat) e).
Proof. intros H. apply bind_ok in H as (u & _ & H). injection H as <-. cbn [dims at_]. auto. Qed.
Lemma linear_zero nin nout x y : Linear nin nout zl x = Ok y -> zero y.
Proof. intros H. apply linear_inv in H as [_ H]. intros i. rewrite H. cbn [zl l_bias l_weight]. rewrite sum_zero; [lra|]. intros. lra. Qed.
Lemma norm_zero n x y : LayerNorm n zn x = Ok y -> zero y /\ dims y = dims x.
Proof. intros H. apply bind_ok in H as (u & _ & H). injection H as <-. split; [|reflexivity]. intros i. cbn [at_ zn n_scale n_shift]. lra. Qed.
Lemma plus_inv x y z : plus x y = Ok z -> dims z = dims x /\ forall i, at_ z i = at_ x i + at_ y i.
Proof. intros H. apply bind_ok in H as (u & _ & H). injection H as <-. cbn [dims at_]. auto. Qed.
Lemma attention_zero num size k v q y : MultiHeadAttention num size za k v q = Ok y -> zero y.
Proof.
  intros H. apply bind_ok in H as (o & _ & H). apply bind_ok in H as (c & _ & H). apply bind_ok in H as (z & L & H). injection H as <-.
  apply linear_zero in L. intros i. cbn [dropout at_]. rewrite L. lra.
Qed.
Lemma ff_zero g x y : FeedForward g (MkFF zl zl no) x = Ok y -> zero y.
Proof.
  intros H. apply bind_ok in H as (o & _ & H). apply bind_ok in H as (c & L & H). injection H as <-. apply linear_zero in L. intros i. cbn [dropout at_]. rewrite L. lra.
Qed.

(** Uniform attention: the mean of the values *)
Lemma head_mean size d B T Q k q y : (d < EMBD)%nat -> (0 < size)%nat -> (0 < T)%nat -> dims k = [B; T; EMBD] -> dims q = [B; Q; EMBD] ->
  Head size (MkHead zl zl (unit_linear 0 d) no) k k q = Ok y ->
  dims y = [B; Q; size] /\ forall a r, at_ y [a; r; 0%nat] = / INR T * sum_n T (fun e => at_ k [a; e; d]).
Proof.
  intros Hd Hs HT Dk Dq H. unfold Head in H. cbn [h_key h_query h_value h_drop] in H.
  apply bind_ok in H as (k' & Lk & H). apply bind_ok in H as (q' & Lq & H). apply bind_ok in H as (v' & Lv & H). apply bind_ok in H as (kt & Tr & H).
  pose proof (linear_zero _ _ _ _ Lk) as Zk. apply linear_inv in Lk as [Ek _]. apply linear_inv in Lq as [Eq _]. apply linear_inv in Lv as [Ev Av].
  rewrite Dk in Ek, Ev. rewrite Dq in Eq. cbn [removelast app] in Ek, Eq, Ev.
  unfold transpose12 in Tr. rewrite Ek in Tr. injection Tr as <-. apply bind_ok in H as (w & Bm & H).
  unfold bmm in Bm. rewrite Eq in Bm. cbn [dims] in Bm. apply bind_ok in Bm as (u & _ & Bm). injection Bm as <-.
  apply bind_ok in H as (s & So & H). cbn [dims pointwise] in So. rewrite Ek in So. cbn [last] in So.
  unfold softmax in So. cbn [dims pointwise at_ List.length Nat.eqb negb guard bind last] in So. injection So as <-.
  unfold bmm in H. cbn [dropout dims] in H. rewrite Ev in H. apply bind_ok in H as (u' & _ & H). injection H as <-. cbn [dims at_].
  split; [reflexivity|]. intros a r. rewrite <- sum_scale. apply sum_n_ext. intros e He.
  replace (sum_n size (fun e0 : nat => at_ q' [a; r; e0] * at_ k' [a; e; e0])) with 0 by (symmetry; apply sum_zero; intros j _; rewrite Zk; lra).
  rewrite Av. cbn [removelast app last unit_linear l_bias l_weight Nat.eqb andb no].
  rewrite (sum_one EMBD _ d Hd) by (intros j _ Nj; rewrite (proj2 (Nat.eqb_neq j d) Nj); lra). rewrite Nat.eqb_refl.
  rewrite (sum_n_ext T _ (fun _ => 1)).
  2: { intros j _. replace (sum_n size (fun e0 : nat => at_ q' [a; r; e0] * at_ k' [a; j; e0])) with 0 by (symmetry; apply sum_zero; intros j' _; rewrite Zk; lra).
       unfold Rdiv. rewrite Rmult_0_l. apply exp_0. }
  rewrite sum_const. unfold Rdiv. rewrite Rmult_0_l, exp_0. change (no [a; r; e]) with 1. assert (INR T <> 0) by (apply not_0_INR; lia). field. assumption.
Qed.

Lemma cat_from_first l : forall x z i, cat_from x l = Ok z -> (last i 0 < last (dims x) 0)%nat -> at_ z i = at_ x i.
Proof.
  induction l as [|y l IH]; intros x z i H L; [now injection H as <-|]. cbn [cat_from] in H. apply bind_ok in H as (u & C & H).
  apply bind_ok in C as (g & _ & C). injection C as <-. rewrite (IH _ _ i H).
  - cbn [at_]. apply Nat.ltb_lt in L. now rewrite L.
  - cbn [dims]. rewrite last_last. lia.
Qed.

Lemma reading_mean d B T Q k q y : (d < EMBD)%nat -> (0 < T)%nat -> dims k = [B; T; EMBD] -> dims q = [B; Q; EMBD] ->
  MultiHeadAttention N_HEADS (EMBD / N_HEADS) (reading d) k k q = Ok y ->
  forall a r c, at_ y [a; r; c] = if Nat.eqb c 0 then / INR T * sum_n T (fun e => at_ k [a; e; d]) else 0.
Proof.
  intros Hd HT Dk Dq H a r c. unfold MultiHeadAttention in H. cbn [reading m_heads m_proj m_drop] in H.
  apply bind_ok in H as (os & M & H). apply bind_ok in H as (o & C & H). apply bind_ok in H as (p & L & H). injection H as <-. cbn [dropout at_ no].
  change (seq 0 N_HEADS) with (0 :: seq 1 7)%nat in M. cbn [mapM] in M. apply bind_ok in M as (o0 & H0 & M). apply bind_ok in M as (os' & _ & M). injection M as <-.
  cbn [cat] in C. assert (Sz : (0 < EMBD / N_HEADS)%nat) by (vm_compute; lia).
  destruct (head_mean (EMBD / N_HEADS) d B T Q k q o0 Hd Sz HT Dk Dq H0) as [D0 A0].
  apply linear_inv in L as [_ L]. rewrite L. cbn [removelast app last unit_linear l_bias l_weight].
  destruct (Nat.eqb_spec c 0) as [->|Nc]; cbn [andb].
  - rewrite (sum_one _ _ 0%nat); [|cbn; lia|intros j _ Nj; rewrite (proj2 (Nat.eqb_neq j 0) Nj); lra].
    cbn [Nat.eqb]. rewrite (cat_from_first _ _ _ [a; r; 0%nat] C) by (rewrite D0; cbn [last]; exact Sz). rewrite A0. change (no [a; r; 0%nat]) with 1. lra.
  - rewrite sum_zero; [change (no [a; r; c]) with 1; lra|]. intros. lra.
Qed.

(** Layer normalisation of (s, 0, ..., 0), column 0 *)
Definition squash (s : R) : R := (s - s / 64) / sqrt (((s - s / 64) * (s - s / 64) + 63 * (s / 64 * (s / 64))) / 64 + 1 / 100000).

Lemma squash_injective s t : squash s = squash t -> s = t.
Proof.
  unfold squash. intros H.
  set (f := fun s : R => ((s - s / 64) * (s - s / 64) + 63 * (s / 64 * (s / 64))) / 64 + 1 / 100000) in *.
  assert (P : forall s, 0 < f s). { intros u. unfold f. pose proof (Rle_0_sqr u) as Q. unfold Rsqr in Q. nra. }
  assert (E : forall s, f s = 63 / 4096 * (s * s) + 1 / 100000) by (intros u; unfold f; field).
  change ((s - s / 64) / sqrt (f s) = (t - t / 64) / sqrt (f t)) in H.
  assert (Hs : 0 < sqrt (f s)) by (apply sqrt_lt_R0, P). assert (Ht : 0 < sqrt (f t)) by (apply sqrt_lt_R0, P).
  assert (C : s * sqrt (f t) = t * sqrt (f s)).
  { apply (f_equal (fun x => x * (sqrt (f s) * sqrt (f t)) * (64 / 63))) in H. unfold Rdiv in H.
    replace ((s - s * / 64) * / sqrt (f s) * (sqrt (f s) * sqrt (f t)) * (64 * / 63)) with (s * sqrt (f t)) in H by (field; lra).
    replace ((t - t * / 64) * / sqrt (f t) * (sqrt (f s) * sqrt (f t)) * (64 * / 63)) with (t * sqrt (f s)) in H by (field; lra). exact H. }
  assert (Q : s * s * f t = t * t * f s).
  { pose proof (sqrt_sqrt (f s) (Rlt_le _ _ (P s))) as S1. pose proof (sqrt_sqrt (f t) (Rlt_le _ _ (P t))) as S2.
    rewrite <- S1, <- S2. replace (s * s * (sqrt (f t) * sqrt (f t))) with ((s * sqrt (f t)) * (s * sqrt (f t))) by ring. rewrite C. ring. }
  rewrite !E in Q. assert (S2 : s * s = t * t) by lra.
  assert (D : (s - t) * (s + t) = 0) by lra. apply Rmult_integral in D as [D|D]; [lra|].
  assert (F : f s = f t) by (rewrite !E, S2; reflexivity). rewrite F in C. apply Rmult_eq_reg_r in C; [exact C|lra].
Qed.

Lemma ok_inj {A} (x y : A) : Ok x = Ok y -> x = y.
Proof. congruence. Qed.
Lemma norm_first B y x n : dims x = [B; 1; EMBD]%nat -> (forall c, c <> 0%nat -> at_ x [n; 0%nat; c] = 0) ->
  LayerNorm EMBD (MkNorm (fun _ => 1) (fun _ => 0)) x = Ok y -> dims y = dims x /\ at_ y [n; 0%nat; 0%nat] = squash (at_ x [n; 0%nat; 0%nat]).
Proof.
  intros Dx Z H. apply bind_ok in H as (u & _ & H). apply ok_inj in H. subst y. split; [reflexivity|]. cbn [at_ n_scale n_shift removelast app last].
  set (s := at_ x [n; 0%nat; 0%nat]).
  assert (M : sum_n EMBD (fun e => at_ x [n; 0%nat; e]) = s) by (rewrite (sum_one EMBD _ 0%nat); [reflexivity|unfold EMBD; lia|intros k _ Nk; now apply Z]).
  rewrite M. replace (INR EMBD) with 64 by (unfold EMBD; cbn; lra).
  assert (V : sum_n EMBD (fun e => (at_ x [n; 0%nat; e] - s / 64) * (at_ x [n; 0%nat; e] - s / 64)) = (s - s / 64) * (s - s / 64) + 63 * (s / 64 * (s / 64))).
  { assert (G : forall m, sum_n (S m) (fun e => (at_ x [n; 0%nat; e] - s / 64) * (at_ x [n; 0%nat; e] - s / 64)) = (s - s / 64) * (s - s / 64) + INR m * (s / 64 * (s / 64))).
    { induction m as [|m IH]; [unfold sum_n; cbn; fold s; lra|]. rewrite sum_n_S, IH, (Z (S m)), S_INR by discriminate. ring. }
    unfold EMBD. rewrite G. replace (INR 63) with 63 by (cbn; lra). reflexivity. }
  rewrite V. unfold squash. lra.
Qed.

(** ** The logits *)
Lemma probe_raw w d h l enc raw n : (d < EMBD)%nat -> dims enc = [List.length l; 150%nat; EMBD] -> l <> [] -> Forall (fits ORDERED h) l ->
  raw_logits ORDERED h (probe w d) l enc = Ok raw ->
  forall k, at_ raw [n; k] = squash (/ 150 * sum_n 150 (fun t => at_ enc [n; t; d])).
Proof.
  intros Hd De Nl F H k. unfold raw_logits in H.
  apply bind_ok in H as (x1 & _ & H). apply bind_ok in H as (x2 & _ & H). apply bind_ok in H as (x3 & _ & H). apply bind_ok in H as (x & St & H).
  cbn [probe k_state k_dec k_ln k_head k_gelu foldM] in *.
  assert (X : zero x /\ exists b, dims x = [b; EMBD]).
  { unfold StateNet in St. apply bind_ok in St as (c & _ & St). apply bind_ok in St as (fl & _ & St). apply bind_ok in St as (ra & _ & St).
    apply bind_ok in St as (co & _ & St). apply bind_ok in St as (p & _ & St). apply bind_ok in St as (f2 & _ & St). apply bind_ok in St as (al & Ca & St).
    apply bind_ok in St as (y1 & L1 & St). apply bind_ok in St as (y2 & L2 & St). injection St as <-. cbn [s_main1 s_main2 zero_state] in *.
    split.
    - apply linear_zero in L2. intros i. cbn [relu pointwise at_]. rewrite L2. apply Rmax_left. lra.
    - cbn [relu pointwise dims].
      assert (D : exists b m, dims al = [b; m]).
      { apply bind_ok in Ca as (g & G & Ca). apply guard_ok in G. cbn [forallb] in G. apply andb_prop in G as [G1 G]. apply Nat.eqb_eq in G1.
        cbn [cat cat_from] in Ca. apply bind_ok in Ca as (z1 & C1 & Ca). apply bind_ok in Ca as (z2 & C2 & Ca). injection Ca as <-.
        apply bind_ok in C1 as (g1 & _ & C1). injection C1 as <-. apply bind_ok in C2 as (g2 & _ & C2). injection C2 as <-. cbn [dims]. change (dims (relu p)) with (dims p) in *.
        destruct (dims p) as [|b [|m [|m' t]]]; try discriminate G1. cbn [removelast app last]. do 2 eexists; reflexivity. }
      destruct D as (b & m & D). apply linear_inv in L1 as [L1 _]. rewrite D in L1. cbn [removelast app] in L1.
      apply linear_inv in L2 as [L2 _]. cbn [relu pointwise dims] in L2. rewrite L1 in L2. cbn [removelast app] in L2. eauto. }
  destruct X as (Zx & b & Dx). apply bind_ok in H as (u & Un & H). unfold unsqueeze1 in Un. rewrite Dx in Un. injection Un as <-.
  apply bind_ok in H as (y & Db & H). apply bind_ok in Db as (y' & Db & E). injection E as ->.
  apply bind_ok in H as (z & Ln & H). apply bind_ok in H as (o & Li & H).
  unfold DecoderBlock in Db. cbn [d_self d_cross d_ff d_ln1 d_ln2 d_ln3] in Db.
  apply bind_ok in Db as (n1 & N1 & Db). apply bind_ok in Db as (s & S1 & Db). apply bind_ok in Db as (v & P1 & Db).
  apply bind_ok in Db as (n2 & N2 & Db). apply bind_ok in Db as (c & C1 & Db). apply bind_ok in Db as (v2 & P2 & Db).
  apply bind_ok in Db as (n3 & N3 & Db). apply bind_ok in Db as (f & Ff & Db).
  apply attention_zero in S1. apply plus_inv in P1 as [Dv Av]. apply norm_zero in N2 as [_ Dn2].
  apply plus_inv in P2 as [Dv2 Av2]. apply ff_zero in Ff. apply plus_inv in Db as [Dy Ay]. cbn [dims] in Dv.
  assert (Eb : b = List.length l).
  { unfold MultiHeadAttention in C1. apply bind_ok in C1 as (os & M & _). change (seq 0 N_HEADS) with (0 :: seq 1 7)%nat in M. cbn [mapM] in M.
    apply bind_ok in M as (o0 & H0 & _). unfold Head in H0. cbn [reading m_heads h_key h_query h_value h_drop] in H0.
    apply bind_ok in H0 as (k' & Lk & H0). apply bind_ok in H0 as (q' & Lq & H0). apply bind_ok in H0 as (v' & Lv & H0). apply bind_ok in H0 as (kt & Tr & H0).
    apply bind_ok in H0 as (w' & Bm & _). apply linear_inv in Lk as [Ek _]. apply linear_inv in Lq as [Eq _]. rewrite De in Ek. rewrite Dn2, Dv in Eq. cbn [removelast app] in Ek, Eq.
    unfold transpose12 in Tr. rewrite Ek in Tr. injection Tr as <-. unfold bmm in Bm. rewrite Eq in Bm. cbn [dims] in Bm. apply bind_ok in Bm as (u & G & _). apply guard_ok in G.
    apply andb_prop in G as [G _]. now apply Nat.eqb_eq in G. }
  subst b.
  assert (Dq : dims n2 = [List.length l; 1%nat; EMBD]) by (rewrite Dn2, Dv; reflexivity).
  pose proof (reading_mean d _ 150 1 enc n2 c Hd ltac:(lia) De Dq C1) as Rd.
  assert (Vy : forall j, at_ y [n; 0%nat; j] = if Nat.eqb j 0 then / 150 * sum_n 150 (fun t => at_ enc [n; t; d]) else 0).
  { intros j. rewrite Ay, Av2, Av, Ff, S1, Rd. cbn [at_]. rewrite Zx. replace (INR 150) with 150 by (rewrite INR_IZR_INZ; reflexivity). destruct (Nat.eqb j 0); lra. }
  assert (Dy3 : dims y = [List.length l; 1%nat; EMBD]) by (rewrite Dy, Dv2, Dv; reflexivity).
  destruct (norm_first (List.length l) z y n Dy3) as [Dz Az]; [intros j Nj; rewrite Vy, (proj2 (Nat.eqb_neq j 0) Nj); reflexivity|exact Ln|].
  apply linear_inv in Li as [Do Ao]. rewrite Dz, Dy3 in Do. cbn [removelast app] in Do.
  unfold squeeze1 in H. rewrite Do in H. injection H as <-. cbn [at_]. rewrite Ao. cbn [removelast app last l_bias l_weight].
  rewrite (sum_one EMBD _ 0%nat); [|unfold EMBD; lia|intros j _ Nj; rewrite (proj2 (Nat.eqb_neq j 0) Nj); lra]. cbn [Nat.eqb].
  rewrite Az, Vy. cbn [Nat.eqb]. lra.
Qed.

(** The sum of one column of the embedding over all positions *)
Definition column_sum (w : weights) (d : nat) (r : sample) : R :=
  match encode_row ORDERED (r_player r) (r_tokens r) with Ok rows => sum_n 150 (fun t => row_sum w (nth t rows []) d) | Err _ => 0 end.

Lemma probe_scores w d h l n r x loss k : (d < EMBD)%nat -> Forall (fits ORDERED h) l -> nth_error l n = Some r ->
  forward ORDERED (probe w d) h l = Ok (x, loss) -> nth k (r_mask r) 0%Z = 1%Z -> at_ x [n; k] = squash (/ 150 * column_sum w d r).
Proof.
  intros Hd F I E M. assert (Nl : l <> []) by (intros ->; now destruct n).
  destruct (forward_ok ORDERED h (probe w d) l Nl F) as (raw & out & (enc & En & Ra) & Fw & (_ & A & _)). rewrite E in Fw. injection Fw as <-. cbn [fst] in A.
  rewrite A. unfold mask_at. rewrite I, M. cbn [Z.eqb Pos.eqb].
  unfold encoder_forward in En. cbn [probe k_embed k_enc foldM] in En. apply bind_ok in En as (e & Em & En). injection En as <-.
  destruct (embed_ok ORDERED h w l Nl F) as (e' & Em' & De & Ae). rewrite Em in Em'. injection Em' as <-.
  rewrite (probe_raw w d h l e raw n Hd De Nl F Ra k). f_equal. f_equal. unfold column_sum.
  assert (Fr : fits ORDERED h r) by (rewrite Forall_forall in F; apply F; exact (nth_error_In _ _ I)). destruct Fr as (Lt & Tt & _).
  destruct (encode_row_total ORDERED (r_player r) (r_tokens r)) as (rows & Er); [lia|exact Tt|]. rewrite Er.
  apply sum_n_ext. intros t _. rewrite (Ae n r t d I), Er. reflexivity.
Qed.

Lemma probe_apart w d h l1 l2 n1 n2 r1 r2 x1 loss1 x2 loss2 k : (d < EMBD)%nat -> Forall (fits ORDERED h) l1 -> Forall (fits ORDERED h) l2 ->
  nth_error l1 n1 = Some r1 -> nth_error l2 n2 = Some r2 -> column_sum w d r1 <> column_sum w d r2 ->
  forward ORDERED (probe w d) h l1 = Ok (x1, loss1) -> forward ORDERED (probe w d) h l2 = Ok (x2, loss2) ->
  nth k (r_mask r1) 0%Z = 1%Z -> nth k (r_mask r2) 0%Z = 1%Z -> at_ x1 [n1; k] <> at_ x2 [n2; k].
Proof.
  intros Hd F1 F2 I1 I2 N E1 E2 M1 M2 H. rewrite (probe_scores w d h l1 n1 r1 x1 loss1 k Hd F1 I1 E1 M1), (probe_scores w d h l2 n2 r2 x2 loss2 k Hd F2 I2 E2 M2) in H.
  apply squash_injective in H. apply N. lra.
Qed.
