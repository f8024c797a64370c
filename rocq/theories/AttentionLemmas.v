(** The network computes the formulas of SpecAttention.v. *)
From Coq Require Import ZArith List Bool Reals Lia Lra PeanoNat Permutation.
From Verif Require Import Base Constants SpecTokens Tensor Encoder EncoderLemmas EncoderSum Network NetworkLemmas SpecNetwork NetworkForward SpecAttention VecLemmas.
Import ListNotations.
Open Scope R_scope.

Lemma sum_total n f : sum_n n f = total n f.
Proof. unfold sum_n, total. induction (seq 0 n) as [|k l IH]; [reflexivity|]. cbn [fold_right map]. now rewrite IH. Qed.
Lemma total_ext n f g : (forall k, (k < n)%nat -> f k = g k) -> total n f = total n g.
Proof. rewrite <- !sum_total. apply sum_n_ext. Qed.

Section One.
  Context (B i : nat).
  (** Sample [i] of the batch [x] is the history [f], of [n] positions with [w] entries. *)
  Definition hist (n w : nat) (x : tensor) (f : nat -> nat -> R) : Prop := dims x = [B; n; w] /\ forall t d, (d < w)%nat -> at_ x [i; t; d] = f t d.
  Definition gives (n w : nat) (r : res tensor) (f : nat -> nat -> R) : Prop := exists x, r = Ok x /\ hist n w x f.
  Lemma gives_ok n w x f : hist n w x f -> gives n w (Ok x) f.
  Proof. intros H. exists x. auto. Qed.
  Lemma gives_bind n w n' w' r f (k : tensor -> res tensor) g : gives n w r f -> (forall x, hist n w x f -> gives n' w' (k x) g) -> gives n' w' (bind r k) g.
  Proof. intros (x & -> & H) K. cbn [bind]. now apply K. Qed.

  Lemma gives_linear n nin nout p x f : hist n nin x f -> gives n nout (Linear nin nout p x) (fun t o => applied p nin (f t) o).
  Proof.
    intros [D E]. unfold Linear. rewrite D. cbn [List.length last Nat.eqb negb andb]. rewrite Nat.eqb_refl. cbn [guard bind]. apply gives_ok. split; [reflexivity|].
    intros t d _. cbn [at_ last removelast app]. unfold applied. rewrite sum_total. f_equal. apply total_ext. intros e He. now rewrite E.
  Qed.
  Lemma normed_at p (row f : nat -> R) d : (forall e, (e < 64)%nat -> row e = f e) -> (d < 64)%nat ->
    (row d - sum_n 64 row / INR 64) / sqrt (sum_n 64 (fun e => (row e - sum_n 64 row / INR 64) * (row e - sum_n 64 row / INR 64)) / INR 64 + 1 / 100000) * n_scale p d + n_shift p d = normed p f d.
  Proof.
    intros A Hd. replace (INR 64) with 64 by (rewrite INR_IZR_INZ; reflexivity). rewrite !sum_total. unfold normed, variance, average.
    rewrite (total_ext 64 row f) by exact A. rewrite (A d Hd).
    rewrite (total_ext 64 (fun e => (row e - total 64 f / 64) * (row e - total 64 f / 64)) (fun e => (f e - total 64 f / 64) * (f e - total 64 f / 64))) by (intros; now rewrite A). reflexivity.
  Qed.
  Lemma gives_norm n p x f : hist n 64 x f -> gives n 64 (LayerNorm 64 p x) (fun t d => normed p (f t) d).
  Proof.
    intros [D E]. unfold LayerNorm. rewrite D. cbn [List.length last Nat.eqb negb andb guard bind]. apply gives_ok. split; [reflexivity|].
    intros t d Hd. cbn [at_ last removelast app]. exact (normed_at p (fun e => at_ x [i; t; e]) (f t) d (E t) Hd).
  Qed.
  Lemma gives_plus n w x f y g : hist n w x f -> hist n w y g -> gives n w (plus x y) (fun t d => f t d + g t d).
  Proof. intros [D E] [D' E']. unfold plus. rewrite D, D', dims_eqb_refl. cbn [guard bind]. apply gives_ok. split; [reflexivity|]. intros t d Hd. cbn [at_]. now rewrite E, E'. Qed.
  Lemma hist_dropout n w m x f : no_drop m -> hist n w x f -> hist n w (dropout m x) f.
  Proof. intros N [D E]. split; [exact D|]. intros t d Hd. cbn [dropout at_]. rewrite N, E by exact Hd. ring. Qed.
  Lemma hist_pointwise n w g x f : hist n w x f -> hist n w (pointwise g x) (fun t d => g (f t d)).
  Proof. intros [D E]. split; [exact D|]. intros t d Hd. cbn [pointwise at_]. now rewrite E. Qed.

  Lemma gives_head h T Q k v q fk fv fq : no_drop (h_drop h) -> hist T 64 k fk -> hist T 64 v fv -> hist Q 64 q fq ->
    gives Q 8 (Head 8 h k v q) (fun t c => head_value h T fk fv (fq t) c).
  Proof.
    intros N K V Q0. unfold Head. change EMBD with 64%nat.
    destruct (gives_linear T 64 8 (h_key h) k fk K) as (k1 & -> & K1). destruct (gives_linear Q 64 8 (h_query h) q fq Q0) as (q1 & -> & Q1). destruct (gives_linear T 64 8 (h_value h) v fv V) as (v1 & -> & V1).
    cbn [bind]. destruct K1 as [Dk Ek], Q1 as [Dq Eq], V1 as [Dv Ev]. unfold transpose12. rewrite Dk. cbn [bind last]. unfold bmm at 1. rewrite Dq. cbn [dims]. rewrite !Nat.eqb_refl. cbn [andb guard bind].
    unfold softmax. cbn [pointwise dims List.length Nat.eqb negb guard bind]. unfold bmm. cbn [dropout dims]. rewrite Dv, !Nat.eqb_refl. cbn [andb guard bind]. apply gives_ok. split; [reflexivity|].
    intros t c Hc. cbn [at_]. rewrite sum_total. unfold head_value. apply total_ext. intros s _. cbn [dropout pointwise at_ last removelast app]. rewrite N, Ev, Rmult_1_r by exact Hc. f_equal. unfold share.
    assert (M : forall u, sum_n 8 (fun e => at_ q1 [i; t; e] * at_ k1 [i; u; e]) / sqrt (INR 8) = match_score h (fk u) (fq t)).
    { intros u. unfold match_score. rewrite sum_total. replace (INR 8) with 8 by (rewrite INR_IZR_INZ; reflexivity). f_equal. apply total_ext. intros e He. now rewrite Eq, Ek. }
    rewrite M. f_equal. rewrite sum_total. apply total_ext. intros u _. now rewrite M.
  Qed.

  Lemma gives_cat2 n v w x y f g : hist n v x f -> hist n w y g -> gives n (v + w) (cat2 x y) (fun t d => if Nat.ltb d v then f t d else g t (d - v)%nat).
  Proof.
    intros [D E] [D' E']. unfold cat2. rewrite D, D'. cbn [removelast last List.length Nat.eqb negb andb]. rewrite dims_eqb_refl. cbn [andb guard bind]. apply gives_ok. split; [reflexivity|].
    intros t d Hd. cbn [at_ last removelast app]. destruct (Nat.ltb_spec d v) as [L|L]; [now apply E|]. apply E'. lia.
  Qed.
  Lemma gives_cat_from n (g : nat -> nat -> nat -> R) c : forall xs x k, Forall2 (fun h y => hist n 8 y (g h)) (seq k c) xs -> hist n (8 * k) x (fun t d => g (d / 8)%nat t (d mod 8)%nat) ->
    gives n (8 * (k + c)) (cat_from x xs) (fun t d => g (d / 8)%nat t (d mod 8)%nat).
  Proof.
    induction c as [|c IH]; intros xs x k F H; cbn [seq] in F; inversion F as [|? y ? ys Hy Hys]; subst; cbn [cat_from].
    - rewrite Nat.add_0_r. now apply gives_ok.
    - destruct (gives_cat2 _ _ _ _ _ _ _ H Hy) as (z & -> & Hz). cbn [bind]. replace (k + S c)%nat with (S k + c)%nat by lia. apply IH; [exact Hys|].
      destruct Hz as [D E]. split; [rewrite D; do 2 f_equal; f_equal; lia|]. intros t d Hd. rewrite E by lia. destruct (Nat.ltb_spec d (8 * k)) as [L|L]; [reflexivity|].
      replace (d / 8)%nat with k by (apply (Nat.div_unique d 8 k (d - 8 * k)); lia). f_equal. apply (Nat.mod_unique d 8 k); lia.
  Qed.
  Lemma gives_heads (m : attention) T Q k v q fk fv fq l : (forall h, no_drop (h_drop (m_heads m h))) -> hist T 64 k fk -> hist T 64 v fv -> hist Q 64 q fq ->
    exists xs, mapM (fun h => Head 8 (m_heads m h) k v q) l = Ok xs /\ Forall2 (fun h y => hist Q 8 y (fun t c => head_value (m_heads m h) T fk fv (fq t) c)) l xs.
  Proof.
    intros N K V Q0. induction l as [|h l (xs & E & F)]; [exists []; split; [reflexivity|constructor]|].
    destruct (gives_head (m_heads m h) T Q k v q fk fv fq (N h) K V Q0) as (y & Ey & Hy). cbn [mapM]. rewrite Ey, E. cbn [bind]. exists (y :: xs). split; [reflexivity|]. now constructor.
  Qed.
  Lemma gives_attention m T Q k v q fk fv fq : evaluation_attention m -> hist T 64 k fk -> hist T 64 v fv -> hist Q 64 q fq ->
    gives Q 64 (MultiHeadAttention 8 8 m k v q) (fun t d => attended m T fk fv (fq t) d).
  Proof.
    intros [N Nm] K V Q0. unfold MultiHeadAttention. destruct (gives_heads m T Q k v q fk fv fq (seq 0 8) N K V Q0) as (xs & -> & F). cbn [bind].
    change (seq 0 8) with (0%nat :: seq 1 7) in F. inversion F as [|? x ? ys Hx Hys]. subst. cbn [cat].
    destruct (gives_cat_from Q (fun h t c => head_value (m_heads m h) T fk fv (fq t) c) 7 ys x 1 Hys) as (z & -> & Hz).
    { destruct Hx as [D E]. split; [exact D|]. intros t d Hd. rewrite E by lia. rewrite Nat.div_small, Nat.mod_small by lia. reflexivity. }
    cbn [bind]. change EMBD with 64%nat. change (8 * 8)%nat with 64%nat. destruct (gives_linear Q 64 64 (m_proj m) z _ Hz) as (o & -> & Ho). cbn [bind]. apply gives_ok. now apply hist_dropout.
  Qed.
  Lemma gives_ff n gelu f x g : no_drop (f_drop f) -> hist n 64 x g -> gives n 64 (FeedForward gelu f x) (fun t d => fed gelu f (g t) d).
  Proof.
    intros N H. unfold FeedForward. change EMBD with 64%nat. change (4 * 64)%nat with 256%nat. destruct (gives_linear n 64 256 (f_up f) x g H) as (y & -> & Hy). cbn [bind].
    destruct (gives_linear n 256 64 (f_down f) _ _ (hist_pointwise n 256 gelu y _ Hy)) as (z & -> & Hz). cbn [bind]. apply gives_ok. now apply hist_dropout.
  Qed.
  Lemma gives_block n gelu b x f : evaluation_attention (e_self b) /\ no_drop (f_drop (e_ff b)) -> hist n 64 x f -> gives n 64 (EncoderBlock gelu b x) (enc_step gelu n f b).
  Proof.
    intros [Na Nf] H. unfold EncoderBlock. change EMBD with 64%nat. change N_HEADS with 8%nat. change (64 / 8)%nat with 8%nat.
    destruct (gives_norm n (e_ln1 b) x f H) as (r & -> & Hr). cbn [bind]. destruct (gives_attention (e_self b) n n r r r _ _ _ Na Hr Hr Hr) as (s & -> & Hs). cbn [bind].
    destruct (gives_plus n 64 x f s _ H Hs) as (y & -> & Hy). cbn [bind]. destruct (gives_norm n (e_ln2 b) y _ Hy) as (r2 & -> & Hr2). cbn [bind].
    destruct (gives_ff n gelu (e_ff b) r2 _ Nf Hr2) as (u & -> & Hu). cbn [bind]. exact (gives_plus n 64 y _ u _ Hy Hu).
  Qed.
  Lemma gives_encoder n gelu bs : Forall (fun b => evaluation_attention (e_self b) /\ no_drop (f_drop (e_ff b))) bs -> forall x f, hist n 64 x f ->
    gives n 64 (foldM (fun x b => EncoderBlock gelu b x) x bs) (fold_left (enc_step gelu n) bs f).
  Proof.
    induction 1 as [|b bs Hb _ IH]; intros x f H; [now apply gives_ok|]. cbn [foldM fold_left]. destruct (gives_block n gelu b x f Hb H) as (y & -> & Hy). cbn [bind]. now apply IH.
  Qed.

  (** The same for one vector per sample *)
  Definition vec (w : nat) (x : tensor) (f : nat -> R) : Prop := dims x = [B; w] /\ forall d, (d < w)%nat -> at_ x [i; d] = f d.
  Definition givesv (w : nat) (r : res tensor) (f : nat -> R) : Prop := exists x, r = Ok x /\ vec w x f.
  Lemma givesv_ok w x f : vec w x f -> givesv w (Ok x) f.
  Proof. intros H. exists x. auto. Qed.
  Lemma givesv_linear nin nout p x f : vec nin x f -> givesv nout (Linear nin nout p x) (applied p nin f).
  Proof.
    intros [D E]. unfold Linear. rewrite D. cbn [List.length last Nat.eqb negb andb]. rewrite Nat.eqb_refl. cbn [guard bind]. apply givesv_ok. split; [reflexivity|].
    intros d _. cbn [at_ last removelast app]. unfold applied. rewrite sum_total. f_equal. apply total_ext. intros e He. now rewrite E.
  Qed.
  Lemma givesv_norm p x f : vec 64 x f -> givesv 64 (LayerNorm 64 p x) (normed p f).
  Proof.
    intros [D E]. unfold LayerNorm. rewrite D. cbn [List.length last Nat.eqb negb andb guard bind]. apply givesv_ok. split; [reflexivity|].
    intros d Hd. cbn [at_ last removelast app]. exact (normed_at p (fun e => at_ x [i; e]) f d E Hd).
  Qed.
  Lemma givesv_plus w x f y g : vec w x f -> vec w y g -> givesv w (plus x y) (fun d => f d + g d).
  Proof. intros [D E] [D' E']. unfold plus. rewrite D, D', dims_eqb_refl. cbn [guard bind]. apply givesv_ok. split; [reflexivity|]. intros d Hd. cbn [at_]. now rewrite E, E'. Qed.
  Lemma givesv_ff gelu f x g : no_drop (f_drop f) -> vec 64 x g -> givesv 64 (FeedForward gelu f x) (fed gelu f g).
  Proof.
    intros N H. unfold FeedForward. change EMBD with 64%nat. change (4 * 64)%nat with 256%nat. destruct (givesv_linear 64 256 (f_up f) x g H) as (y & -> & [Dy Ey]). cbn [bind].
    destruct (givesv_linear 256 64 (f_down f) (pointwise gelu y) (fun j => gelu (applied (f_up f) 64 g j))) as (z & -> & [Dz Ez]).
    { split; [exact Dy|]. intros d Hd. cbn [pointwise at_]. now rewrite Ey. }
    cbn [bind]. apply givesv_ok. split; [exact Dz|]. intros d Hd. cbn [dropout at_]. rewrite N, Ez by exact Hd. unfold fed. ring.
  Qed.
  Lemma gives_unsqueeze w x f : vec w x f -> gives 1 w (unsqueeze1 x) (fun _ => f).
  Proof. intros [D E]. unfold unsqueeze1. rewrite D. apply gives_ok. split; [reflexivity|]. intros t d Hd. cbn [at_]. now apply E. Qed.
  Lemma gives_squeeze w x f : hist 1 w x (fun _ => f) -> givesv w (squeeze1 x) f.
  Proof. intros [D E]. unfold squeeze1. rewrite D. apply givesv_ok. split; [reflexivity|]. intros d Hd. cbn [at_]. now apply E. Qed.

  Definition quiet_dec (b : dec_block) : Prop := evaluation_attention (d_self b) /\ evaluation_attention (d_cross b) /\ no_drop (f_drop (d_ff b)).
  Lemma gives_dec_ordered n gelu b enc fe x f : quiet_dec b -> hist n 64 enc fe -> hist 1 64 x (fun _ => f) ->
    gives 1 64 (DecoderBlock ORDERED gelu b enc x) (fun _ => dec_step ORDERED gelu n fe f b).
  Proof.
    intros (Ns & Nc & Nf) He H. unfold DecoderBlock. change EMBD with 64%nat. change N_HEADS with 8%nat. change (64 / 8)%nat with 8%nat.
    destruct (gives_norm 1 (d_ln1 b) x _ H) as (r & -> & Hr). cbn [bind]. destruct (gives_attention (d_self b) 1 1 r r r _ _ _ Ns Hr Hr Hr) as (s & -> & Hs). cbn [bind].
    destruct (gives_plus 1 64 x _ s _ H Hs) as (y & -> & Hy). cbn [bind]. destruct (gives_norm 1 (d_ln2 b) y _ Hy) as (r2 & -> & Hr2). cbn [bind].
    destruct (gives_attention (d_cross b) n 1 enc enc r2 _ _ _ Nc He He Hr2) as (c & -> & Hc). cbn [bind]. destruct (gives_plus 1 64 y _ c _ Hy Hc) as (z & -> & Hz). cbn [bind].
    destruct (gives_norm 1 (d_ln3 b) z _ Hz) as (r3 & -> & Hr3). cbn [bind]. destruct (gives_ff 1 gelu (d_ff b) r3 _ Nf Hr3) as (u & -> & Hu). cbn [bind]. exact (gives_plus 1 64 z _ u _ Hz Hu).
  Qed.
  Lemma gives_dec_others a n gelu b enc fe x f : a <> ORDERED -> quiet_dec b -> hist n 64 enc fe -> vec 64 x f -> givesv 64 (DecoderBlock a gelu b enc x) (dec_step a gelu n fe f b).
  Proof.
    intros Na (Ns & Nc & Nf) He H.
    assert (G : givesv 64 (DecoderBlock TF gelu b enc x) (dec_step TF gelu n fe f b)).
    { unfold DecoderBlock. change EMBD with 64%nat. change N_HEADS with 8%nat. change (64 / 8)%nat with 8%nat.
      destruct (givesv_norm (d_ln1 b) x _ H) as (r & -> & Hr). cbn [bind]. destruct (gives_unsqueeze 64 r _ Hr) as (r' & -> & Hr'). cbn [bind].
      destruct (gives_attention (d_self b) n 1 enc enc r' _ _ _ Ns He He Hr') as (s & -> & Hs). cbn [bind]. destruct (gives_squeeze 64 s _ Hs) as (s' & -> & Hs'). cbn [bind].
      destruct (givesv_plus 64 x _ s' _ H Hs') as (y & -> & Hy). cbn [bind]. destruct (givesv_norm (d_ln2 b) y _ Hy) as (r2 & -> & Hr2). cbn [bind]. destruct (gives_unsqueeze 64 r2 _ Hr2) as (r2' & -> & Hr2'). cbn [bind].
      destruct (gives_attention (d_cross b) n 1 enc enc r2' _ _ _ Nc He He Hr2') as (c & -> & Hc). cbn [bind]. destruct (gives_squeeze 64 c _ Hc) as (c' & -> & Hc'). cbn [bind].
      destruct (givesv_plus 64 y _ c' _ Hy Hc') as (z & -> & Hz). cbn [bind]. destruct (givesv_norm (d_ln3 b) z _ Hz) as (r3 & -> & Hr3). cbn [bind].
      destruct (givesv_ff gelu (d_ff b) r3 _ Nf Hr3) as (u & -> & Hu). cbn [bind]. exact (givesv_plus 64 z _ u _ Hz Hu). }
    destruct a; [exact G|exact G|exact G|contradiction].
  Qed.
  Lemma gives_decoder_ordered n gelu bs enc fe : Forall quiet_dec bs -> hist n 64 enc fe -> forall x f, hist 1 64 x (fun _ => f) ->
    gives 1 64 (foldM (fun x b => DecoderBlock ORDERED gelu b enc x) x bs) (fun _ => fold_left (dec_step ORDERED gelu n fe) bs f).
  Proof.
    intros Q He. induction Q as [|b bs Hb _ IH]; intros x f H; [now apply gives_ok|]. cbn [foldM fold_left]. destruct (gives_dec_ordered n gelu b enc fe x f Hb He H) as (y & -> & Hy). cbn [bind]. now apply IH.
  Qed.
  Lemma gives_decoder_others a n gelu bs enc fe : a <> ORDERED -> Forall quiet_dec bs -> hist n 64 enc fe -> forall x f, vec 64 x f ->
    givesv 64 (foldM (fun x b => DecoderBlock a gelu b enc x) x bs) (fold_left (dec_step a gelu n fe) bs f).
  Proof.
    intros Na Q He. induction Q as [|b bs Hb _ IH]; intros x f H; [now apply givesv_ok|]. cbn [foldM fold_left]. destruct (gives_dec_others a n gelu b enc fe x f Na Hb He H) as (y & -> & Hy). cbn [bind]. now apply IH.
  Qed.
End One.
