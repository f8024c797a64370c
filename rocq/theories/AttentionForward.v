(** The whole network in formulas, and what follows from them. *)
From Coq Require Import ZArith List Bool Reals Lia Lra PeanoNat Permutation FunctionalExtensionality.
From Verif Require Import Base Constants SpecTokens Tensor Encoder EncoderLemmas EncoderSum Network NetworkLemmas SpecNetwork NetworkForward SpecAttention AttentionLemmas VecLemmas SpecState StateForward.
Import ListNotations.
Open Scope R_scope.

Lemma okinj {A} (x y : A) : Ok x = Ok y -> x = y.
Proof. congruence. Qed.
Lemma some_sample (l : list sample) n r : nth_error l n = Some r -> l <> [].
Proof. intros I ->. destruct n; discriminate I. Qed.
Lemma mapM_nth {A C} (f : A -> res C) l ys d d' : mapM f l = Ok ys -> forall t, (t < List.length l)%nat -> f (nth t l d) = Ok (nth t ys d').
Proof.
  intros E. apply mapM_ok in E. induction E as [|x y l ys H _ IH]; intros t Ht; [cbn in Ht; lia|]. destruct t; [exact H|]. cbn [nth]. apply IH. cbn in Ht. lia.
Qed.
Lemma nth_enumerate {A} (l : list A) d t : (t < List.length l)%nat -> nth t (enumerate l) (0%nat, d) = (t, nth t l d).
Proof.
  intros H. unfold enumerate. rewrite combine_nth by apply seq_length. rewrite seq_nth by exact H. reflexivity.
Qed.
(** The embedded history of a sample *)
Definition history (a : agent) (w : weights) (r : sample) (t d : nat) : R := match encode_row a (r_player r) (r_tokens r) with Ok rows => row_sum w (nth t rows []) d | Err _ => 0 end.
Lemma history_embed a h w r : fits a h r -> forall t, (t < 150)%nat -> embed a w (r_player r) t (nth t (r_tokens r) 0%Z) = Ok (history a w r t).
Proof.
  intros (L & T & _) t Ht. unfold history. destruct (encode_row_total a (r_player r) (r_tokens r)) as (rows & E); [lia|exact T|]. rewrite E. unfold encode_row in E.
  pose proof (mapM_nth _ _ _ (0%nat, 0%Z) [] E t) as M. unfold embed. rewrite nth_enumerate in M by lia. cbn [fst snd] in M. rewrite M; [reflexivity|].
  unfold enumerate. rewrite combine_length, seq_length. lia.
Qed.
Lemma encoder_hist a h net l n r : evaluation net -> Forall (fits a h) l -> nth_error l n = Some r ->
  exists enc, encoder_forward a net l = Ok enc /\ hist (List.length l) n 150 64 enc (encoded net 150 (history a (k_embed net) r)).
Proof.
  intros [Ev _] F I. unfold encoder_forward. destruct (embed_ok a h (k_embed net) l (some_sample l n r I) F) as (x & Ex & Dx & Ax). rewrite Ex. cbn [bind].
  destruct (gives_encoder (List.length l) n 150 (k_gelu net) (k_enc net) Ev x (history a (k_embed net) r)) as (y & Ey & Hy).
  { split; [exact Dx|]. intros t d _. now rewrite (Ax n r t d I). }
  exists y. split; [exact Ey|exact Hy].
Qed.
Lemma raw_vec a h net l n r enc fe : evaluation net -> Forall (fits a h) l -> nth_error l n = Some r -> hist (List.length l) n 150 64 enc fe ->
  givesv (List.length l) n (width h) (raw_logits a h net l enc) (scored_by a net h 150 fe (state_vector a (k_state net) (r_state r))).
Proof.
  intros [_ Ev] F I He. destruct (state_ok a h net l n r F I) as (x1 & x2 & x3 & x & E1 & E2 & E3 & E & V). unfold raw_logits. rewrite E1, E2, E3. cbn [bind]. rewrite E. cbn [bind].
  assert (O : a = ORDERED \/ a <> ORDERED) by (destruct a; auto; right; discriminate). destruct O as [-> |N].
  - destruct (gives_unsqueeze _ _ 64 x _ V) as (x' & -> & H'). cbn [bind].
    destruct (gives_decoder_ordered _ _ 150 (k_gelu net) (k_dec net) enc fe Ev He x' _ H') as (y & -> & Hy). cbn [bind].
    change EMBD with 64%nat. destruct (gives_norm _ _ 1 (k_ln net) y _ Hy) as (z & -> & Hz). cbn [bind]. destruct (gives_linear _ _ 1 64 (width h) (k_head net h) z _ Hz) as (u & -> & Hu). cbn [bind].
    exact (gives_squeeze _ _ (width h) u _ Hu).
  - assert (G : givesv (List.length l) n (width h) (x0 <- foldM (fun x b => DecoderBlock a (k_gelu net) b enc x) x (k_dec net) ;; x4 <- LayerNorm EMBD (k_ln net) x0 ;; Linear EMBD (width h) (k_head net h) x4)
      (scored_by a net h 150 fe (state_vector a (k_state net) (r_state r)))).
    { destruct (gives_decoder_others _ _ a 150 (k_gelu net) (k_dec net) enc fe N Ev He x _ V) as (y & -> & Hy). cbn [bind]. change EMBD with 64%nat.
      destruct (givesv_norm _ _ (k_ln net) y _ Hy) as (z & -> & Hz). cbn [bind]. exact (givesv_linear _ _ 64 (width h) (k_head net h) z _ Hz). }
    destruct a; try contradiction; exact G.
Qed.
Lemma forward_formula a h net l n r : evaluation net -> Forall (fits a h) l -> nth_error l n = Some r ->
  exists out, forward a net h l = Ok out /\ dims (fst out) = [List.length l; width h] /\
    (forall k, (k < width h)%nat -> at_ (fst out) [n; k] = if (nth k (r_mask r) 0 =? 0)%Z then MASKED else scored_by a net h 150 (encoded net 150 (history a (k_embed net) r)) (state_vector a (k_state net) (r_state r)) k).
Proof.
  intros Ev F I. destruct (encoder_hist a h net l n r Ev F I) as (enc & Ee & He). destruct (raw_vec a h net l n r enc _ Ev F I He) as (raw & Er & [Dr Ar]).
  destruct (finish a h net l enc raw (some_sample l n r I) F Ee Er Dr) as (out & Eo & D & A & _). exists out. split; [exact Eo|]. split; [exact D|]. intros k Hk. rewrite A. unfold mask_at. rewrite I, Ar by exact Hk. reflexivity.
Qed.

(** ** Shares *)
Lemma total_pos n f : (0 < n)%nat -> (forall k, 0 < f k) -> 0 < total n f.
Proof.
  intros Hn P. destruct n as [|n]; [lia|]. unfold total. cbn [seq map fold_right]. assert (0 <= fold_right Rplus 0 (map f (seq 1 n))); [|specialize (P 0%nat); lra].
  induction (seq 1 n) as [|k l IH]; cbn [map fold_right]; [lra|]. specialize (P k). lra.
Qed.
Lemma total_div n f c : total n (fun k => f k / c) = total n f / c.
Proof. unfold total. induction (seq 0 n) as [|k l IH]; cbn [map fold_right]; [unfold Rdiv; ring|]. rewrite IH. unfold Rdiv. ring. Qed.
Lemma share_pos h n k q s : (0 < n)%nat -> 0 < share h n k q s.
Proof. intros Hn. unfold share. apply Rdiv_lt_0_compat; [apply exp_pos|]. apply total_pos; [exact Hn|]. intros. apply exp_pos. Qed.
Lemma share_sum h n k q : (0 < n)%nat -> total n (share h n k q) = 1.
Proof.
  intros Hn. unfold share. rewrite total_div. apply Rinv_r. apply Rgt_not_eq. apply total_pos; [exact Hn|]. intros. apply exp_pos.
Qed.

(** ** Order *)
Lemma total_perm n p f : rearranges n p -> total n (fun s => f (p s)) = total n f.
Proof.
  intros P. unfold total. rewrite <- (map_map p f). apply (Permutation_map f) in P. induction P; cbn [fold_right]; try lra.
Qed.
Lemma share_perm h n p k q s : rearranges n p -> share h n (fun t => k (p t)) q s = share h n k q (p s).
Proof. intros P. unfold share. f_equal. exact (total_perm n p (fun u => exp (match_score h (k u) q)) P). Qed.
Lemma attended_perm m n p k v q : rearranges n p -> attended m n (fun t => k (p t)) (fun t => v (p t)) q = attended m n k v q.
Proof.
  intros P. extensionality o. unfold attended. f_equal. extensionality j. unfold head_value.
  rewrite <- (total_perm n p (fun s => share (m_heads m (j / 8)) n k q s * applied (h_value (m_heads m (j / 8))) 64 (v s) (j mod 8)) P). apply total_ext. intros s _. now rewrite share_perm.
Qed.
Lemma enc_step_perm gelu n p x b : rearranges n p -> enc_step gelu n (fun t => x (p t)) b = (fun t => enc_step gelu n x b (p t)).
Proof.
  intros P. extensionality t. unfold enc_step. cbv zeta.
  rewrite (attended_perm (e_self b) n p (fun u => normed (e_ln1 b) (x u)) (fun u => normed (e_ln1 b) (x u)) (normed (e_ln1 b) (x (p t))) P). reflexivity.
Qed.
Lemma encoded_perm net n p x : rearranges n p -> encoded net n (fun t => x (p t)) = (fun t => encoded net n x (p t)).
Proof. intros P. unfold encoded. revert x. induction (k_enc net) as [|b bs IH]; intros x; [reflexivity|]. cbn [fold_left]. rewrite enc_step_perm by exact P. apply IH. Qed.
Lemma dec_step_perm a gelu n p enc x b : rearranges n p -> dec_step a gelu n (fun t => enc (p t)) x b = dec_step a gelu n enc x b.
Proof. intros P. unfold dec_step. cbv zeta. rewrite !(attended_perm _ n p enc enc) by exact P. reflexivity. Qed.
Lemma scored_perm a net h n p enc s : rearranges n p -> scored_by a net h n (fun t => enc (p t)) s = scored_by a net h n enc s.
Proof.
  intros P. assert (E : fold_left (dec_step a (k_gelu net) n (fun t => enc (p t))) (k_dec net) s = fold_left (dec_step a (k_gelu net) n enc) (k_dec net) s).
  { generalize (k_dec net). intros bs. revert s. induction bs as [|b bs IH]; intros s; [reflexivity|]. cbn [fold_left]. rewrite dec_step_perm by exact P. apply IH. }
  extensionality k. unfold scored_by. rewrite E. reflexivity.
Qed.

(** ** Weights without influence *)
Lemma total_plus n f g : total n (fun k => f k + g k) = total n f + total n g.
Proof. unfold total. induction (seq 0 n) as [|k l IH]; cbn [map fold_right]; [ring|]. rewrite IH. ring. Qed.
Lemma total_scale n f c : total n (fun k => c * f k) = c * total n f.
Proof. unfold total. induction (seq 0 n) as [|k l IH]; cbn [map fold_right]; [ring|]. rewrite IH. ring. Qed.
Lemma like_score h h' k q : like_head h h' ->
  match_score h' k q = total 8 (fun c => applied (h_query h) 64 q c * (l_bias (h_key h') c - l_bias (h_key h) c)) / sqrt 8 + match_score h k q.
Proof.
  intros [K Q _]. unfold match_score. rewrite Q. unfold Rdiv. rewrite <- Rmult_plus_distr_r. f_equal. rewrite <- total_plus. apply total_ext. intros c _. unfold applied at 2 5. rewrite K. ring.
Qed.
Lemma like_share h h' n k q s : (0 < n)%nat -> like_head h h' -> share h' n k q s = share h n k q s.
Proof.
  intros Hn L. unfold share. set (c := total 8 (fun c => applied (h_query h) 64 q c * (l_bias (h_key h') c - l_bias (h_key h) c)) / sqrt 8).
  rewrite (like_score h h' (k s) q L). fold c. rewrite (total_ext n _ (fun u => exp c * exp (match_score h (k u) q))).
  2: { intros u _. rewrite (like_score h h' (k u) q L). fold c. apply exp_plus. }
  rewrite total_scale, exp_plus. assert (P : 0 < total n (fun u => exp (match_score h (k u) q))) by (apply total_pos; [exact Hn|]; intros; apply exp_pos).
  field. split; [lra|]. apply Rgt_not_eq, exp_pos.
Qed.
Lemma like_attended m m' n k v q : (0 < n)%nat -> like_attention m m' -> attended m' n k v q = attended m n k v q.
Proof.
  intros Hn [P H]. extensionality o. unfold attended. rewrite P. assert (E : (fun j => head_value (m_heads m' (j / 8)) n k v q (j mod 8)) = (fun j => head_value (m_heads m (j / 8)) n k v q (j mod 8))).
  { extensionality j. specialize (H (j / 8)%nat). unfold head_value. apply total_ext. intros s _. rewrite (like_share _ _ n k q s Hn H), (lh_value _ _ H). reflexivity. }
  rewrite E. reflexivity.
Qed.
Lemma share_one h k q : share h 1 k q 0 = 1.
Proof. pose proof (share_sum h 1 k q ltac:(lia)) as E. unfold total in E. cbn [seq map fold_right] in E. lra. Qed.
Lemma free_attended m m' k v q : free_attention m m' -> attended m' 1 k v q = attended m 1 k v q.
Proof.
  intros [P H]. extensionality o. unfold attended. rewrite P. assert (E : (fun j => head_value (m_heads m' (j / 8)) 1 k v q (j mod 8)) = (fun j => head_value (m_heads m (j / 8)) 1 k v q (j mod 8))).
  { extensionality j. unfold head_value. apply total_ext. intros s Hs. replace s with 0%nat by lia. rewrite !share_one, H. reflexivity. }
  rewrite E. reflexivity.
Qed.

Lemma dead_enc gelu n x b b' : (0 < n)%nat -> same_but_dead_enc b b' -> enc_step gelu n x b' = enc_step gelu n x b.
Proof.
  intros Hn (A & F & L1 & L2). extensionality t. unfold enc_step. cbv zeta. rewrite L1, L2, F. rewrite (like_attended (e_self b) (e_self b') n _ _ _ Hn A). reflexivity.
Qed.
Lemma dead_dec a gelu n enc x b b' : (0 < n)%nat -> same_but_dead_dec a b b' -> dec_step a gelu n enc x b' = dec_step a gelu n enc x b.
Proof.
  intros Hn (A & C & F & L1 & L2 & L3). unfold dec_step. cbv zeta. rewrite L1, L2, L3, F, (like_attended (d_cross b) (d_cross b') n _ _ _ Hn C).
  destruct a; try (rewrite (like_attended (d_self b) (d_self b') n _ _ _ Hn A); reflexivity). rewrite (free_attended (d_self b) (d_self b') _ _ _ A). reflexivity.
Qed.
Lemma dead_encoded a net net' n x : (0 < n)%nat -> same_but_dead a net net' -> encoded net' n x = encoded net n x.
Proof.
  intros Hn D. unfold encoded. rewrite (sd_gelu _ _ _ D). pose proof (sd_enc _ _ _ D) as F. revert x. induction F as [|b b' bs bs' H _ IH]; intros x; [reflexivity|]. cbn [fold_left]. rewrite (dead_enc _ n x b b' Hn H). apply IH.
Qed.
Lemma dead_scored a net net' h n enc s : (0 < n)%nat -> same_but_dead a net net' -> scored_by a net' h n enc s = scored_by a net h n enc s.
Proof.
  intros Hn D. assert (E : fold_left (dec_step a (k_gelu net) n enc) (k_dec net') s = fold_left (dec_step a (k_gelu net) n enc) (k_dec net) s).
  { pose proof (sd_dec _ _ _ D) as F. generalize (k_gelu net). intros gelu. revert s. induction F as [|b b' bs bs' H _ IH]; intros s; [reflexivity|]. cbn [fold_left]. rewrite (dead_dec a gelu n enc s b b' Hn H). apply IH. }
  extensionality k. unfold scored_by. rewrite (sd_gelu _ _ _ D), E, (sd_ln _ _ _ D), (sd_head _ _ _ D). reflexivity.
Qed.
Lemma dead_state a net net' f : same_but_dead a net net' -> state_vector a (k_state net') f = state_vector a (k_state net) f.
Proof. intros D. now rewrite (sd_state _ _ _ D). Qed.
Lemma dead_logits a h net net' l n r : evaluation net -> evaluation net' -> same_but_dead a net net' -> Forall (fits a h) l -> nth_error l n = Some r ->
  exists out out', forward a net h l = Ok out /\ forward a net' h l = Ok out' /\ forall k, (k < width h)%nat -> at_ (fst out') [n; k] = at_ (fst out) [n; k].
Proof.
  intros E E' D F I. destruct (forward_formula a h net l n r E F I) as (out & O & _ & A). destruct (forward_formula a h net' l n r E' F I) as (out' & O' & _ & A').
  exists out, out'. split; [exact O|]. split; [exact O'|]. assert (Pn : (0 < 150)%nat) by lia. intros k Hk. rewrite A, A' by exact Hk. rewrite (dead_state _ _ _ _ D), (dead_encoded _ _ _ 150 _ Pn D), (dead_scored _ _ _ _ 150 _ _ Pn D), (sd_embed _ _ _ D). reflexivity.
Qed.
Lemma dead_forward a h net net' l out : evaluation net -> evaluation net' -> same_but_dead a net net' -> Forall (fits a h) l -> forward a net h l = Ok out ->
  exists out', forward a net' h l = Ok out' /\ dims (fst out') = dims (fst out) /\ snd out' = snd out /\
    forall n k, (n < List.length l)%nat -> (k < width h)%nat -> at_ (fst out') [n; k] = at_ (fst out) [n; k].
Proof.
  intros E E' D F O. assert (N : l <> []) by (intros ->; cbn in O; discriminate O).
  destruct (forward_ok a h net l N F) as (_ & o & _ & O1 & D1 & _ & L1). rewrite O in O1. apply okinj in O1. subst o.
  destruct (forward_ok a h net' l N F) as (_ & out' & _ & O' & D1' & _ & L1'). exists out'. split; [exact O'|]. split; [congruence|].
  assert (A : forall n k, (n < List.length l)%nat -> (k < width h)%nat -> at_ (fst out') [n; k] = at_ (fst out) [n; k]).
  { intros n k Hn Hk. destruct (nth_error l n) as [r|] eqn:I; [|apply nth_error_None in I; lia].
    destruct (dead_logits a h net net' l n r E E' D F I) as (o & o' & P & P' & A). rewrite O in P. rewrite O' in P'. apply okinj in P. apply okinj in P'. subst o o'. now apply A. }
  split; [|exact A]. rewrite L1, L1'. f_equal. apply sum_n_ext. intros n Hn. f_equal; [f_equal; apply sum_n_ext; intros k Hk; now rewrite A|]. apply A; [exact Hn|].
  assert (In (nth n (map r_label l) 0%Z) (map r_label l)) as J by (apply nth_In; now rewrite map_length). apply in_map_iff in J as (r & <- & Ir). rewrite Forall_forall in F.
  destruct (F r Ir) as (_ & _ & _ & _ & _ & _ & _ & _ & _ & _ & Hl). lia.
Qed.
