(** C135, C136: what the transformer computes.  The formulas are in SpecAttention.v and SpecState.v, the vocabulary of samples in
    SpecNetwork.v, proofs in AttentionLemmas.v and AttentionForward.v. *)
From Coq Require Import ZArith List Bool Reals Lia Lra PeanoNat Permutation.
From Verif Require Import Base Constants SpecTokens Tensor Encoder EncoderSum Network SpecNetwork PropsNetwork SpecAttention AttentionLemmas AttentionForward SpecState.
Import ListNotations.
Open Scope R_scope.

(** C135: in evaluation mode the scores of a sample are those of the formulas, for the embedding [E] of its 150
    tokens and the vector made of its state features (SpecState.v). *)
Theorem C135_network : forall a h net l n r, evaluation net -> Forall (fits a h) l -> nth_error l n = Some r ->
  exists out loss E, forward a net h l = Ok (out, loss) /\ dims out = [List.length l; width h] /\
    (forall t, (t < 150)%nat -> embed a (k_embed net) (r_player r) t (nth t (r_tokens r) 0%Z) = Ok (E t)) /\
    forall k, (k < width h)%nat -> nth k (r_mask r) 0%Z = 1%Z ->
      at_ out [n; k] = scored_by a net h 150 (encoded net 150 E) (state_vector a (k_state net) (r_state r)) k.
Proof.
  intros a h net l n r Ev F I. destruct (forward_formula a h net l n r Ev F I) as ([out loss] & O & D & A). exists out, loss, (history a (k_embed net) r).
  split; [exact O|]. split; [exact D|]. split; [apply (history_embed a h); rewrite Forall_forall in F; apply F; eapply nth_error_In; exact I|]. intros k Hk M. cbn [fst] in A. rewrite (A k Hk), M. reflexivity.
Qed.
Print Assumptions C135_network.
(** An attention layer on its own. *)
Theorem C135_attention : forall m B T Q k v q, evaluation_attention m -> dims k = [B; T; 64%nat] -> dims v = [B; T; 64%nat] -> dims q = [B; Q; 64%nat] ->
  exists out, MultiHeadAttention 8 8 m k v q = Ok out /\ dims out = [B; Q; 64%nat] /\
    forall n t d, (d < 64)%nat -> at_ out [n; t; d] = attended m T (fun s e => at_ k [n; s; e]) (fun s e => at_ v [n; s; e]) (fun e => at_ q [n; t; e]) d.
Proof.
  intros m B T Q k v q Ev Dk Dv Dq.
  assert (G : forall n, gives B n Q 64 (MultiHeadAttention 8 8 m k v q) (fun t d => attended m T (fun s e => at_ k [n; s; e]) (fun s e => at_ v [n; s; e]) (fun e => at_ q [n; t; e]) d)).
  { intros n. apply (gives_attention B n m T Q k v q (fun s e => at_ k [n; s; e]) (fun s e => at_ v [n; s; e]) (fun t e => at_ q [n; t; e]) Ev); (split; [assumption|reflexivity]). }
  destruct (G 0%nat) as (out & O & [D _]). exists out. split; [exact O|]. split; [exact D|]. intros n t d Hd. destruct (G n) as (out' & O' & [_ A]). rewrite O in O'. apply okinj in O'. subst out'. exact (A t d Hd).
Qed.
Print Assumptions C135_attention.
(** Every position has a positive share of the attention, padding included, and the shares add up to one. *)
Theorem C135_shares : forall h n k q, (0 < n)%nat -> (forall s, 0 < share h n k q s) /\ total n (share h n k q) = 1.
Proof. intros h n k q Hn. split; [intros s; now apply share_pos|now apply share_sum]. Qed.
Print Assumptions C135_shares.
(** The order of the history matters only through the embedding of the positions: if the embedded history is
    rearranged, the scores stay the same. *)
Theorem C135_order : forall a net h n p x state k, rearranges n p ->
  scored_by a net h n (encoded net n (fun t => x (p t))) state k = scored_by a net h n (encoded net n x) state k.
Proof. intros a net h n p x state k P. rewrite (encoded_perm net n p x P), (scored_perm a net h n p (encoded net n x) state P). reflexivity. Qed.
Print Assumptions C135_order.

(** A convolution that adds up three neighbours sees tile 0 of plane 0 from tile 0 and tile 1, but not from tile 2,
    nor from tile 36; the entries of a vector in a row are those of the planes. *)
Definition adds : conv1 := MkConv1 (fun _ _ _ => 1) (fun _ => 0).
Example C135_state_example : let x q s (_ : nat) := if Nat.eqb q 0 && Nat.eqb s 0 then 1 else 0 in
  along adds 3 x 0 0 0 = 1 /\ along adds 3 x 0 1 0 = 1 /\ along adds 3 x 0 2 0 = 0 /\ along adds 3 x 0 36 0 = 0 /\
  in_a_row 4 (fun c k p => INR (100 * c + 10 * k + p)) (148 + 7) = INR 113 /\ positive_part (-1) = 0.
Proof.
  cbv zeta. unfold along, total, adds. cbn [c1_bias c1_weight seq map fold_right]. unfold near. cbn [Nat.add Nat.sub Nat.eqb Nat.ltb Nat.leb andb].
  repeat split; try ring. unfold positive_part. rewrite Rmax_right; lra.
Qed.

(** A head that looks for the largest first entry: of two positions the one with entry 1 gets the share e / (1 + e). *)
Definition zero_lin : linear := MkLinear (fun _ _ => 0) (fun _ => 0).
Definition first_lin : linear := MkLinear (fun o e => if Nat.eqb o 0 && Nat.eqb e 0 then 1 else 0) (fun _ => 0).
Definition one_lin : linear := MkLinear (fun _ _ => 0) (fun _ => 1).
Definition looks : head := MkHead first_lin (MkLinear (fun _ _ => 0) (fun o => if Nat.eqb o 0 then sqrt 8 else 0)) first_lin (fun _ => 1).
Lemma first_applied x c : applied first_lin 64 x c = if Nat.eqb c 0 then x 0%nat else 0.
Proof.
  unfold applied, total. cbn [first_lin l_bias l_weight seq map fold_right Nat.eqb]. destruct (Nat.eqb c 0); cbn [andb]; ring.
Qed.
Lemma looks_score k q : match_score looks k q = k 0%nat.
Proof.
  unfold match_score, total. cbn [seq map fold_right looks h_query h_key]. rewrite !first_applied. cbn [Nat.eqb].
  replace (applied _ 64 q 0) with (sqrt 8) by (unfold applied, total; cbn [l_bias l_weight seq map fold_right Nat.eqb]; ring).
  assert (P : 0 < sqrt 8) by (apply sqrt_lt_R0; lra). field. lra.
Qed.
Example C135_example : let k s (_ : nat) := if Nat.eqb s 0 then 1 else 0 in share looks 2 k (fun _ => 0) 0 = exp 1 / (exp 1 + 1) /\ share looks 2 k (fun _ => 0) 1 = 1 / (exp 1 + 1) /\
  head_value looks 2 k k (fun _ => 0) 0 = exp 1 / (exp 1 + 1) /\ rearranges 3 (fun s => (2 - s)%nat).
Proof.
  cbv zeta. assert (S : forall s, share looks 2 (fun s _ => if Nat.eqb s 0 then 1 else 0) (fun _ => 0) s = exp (if Nat.eqb s 0 then 1 else 0) / (exp 1 + 1)).
  { intros s. unfold share. rewrite looks_score. f_equal. unfold total. cbn [seq map fold_right]. rewrite !looks_score. cbn [Nat.eqb]. rewrite exp_0. ring. }
  split; [rewrite S; reflexivity|]. split; [rewrite S; cbn [Nat.eqb]; now rewrite exp_0|]. split.
  - unfold head_value, total. cbn [seq map fold_right]. rewrite !S. cbn [looks h_value]. rewrite !first_applied. cbn [Nat.eqb]. unfold Rdiv. ring.
  - unfold rearranges. cbn [seq map Nat.sub]. apply perm_trans with [1; 2; 0]%nat; [|apply perm_trans with [1; 0; 2]%nat; [constructor; constructor|constructor]]. constructor.
Qed.

(** ** C136 *)
(** Networks that differ only in the biases of the keys and, for the ordered agent, in the keys and queries of the
    self-attention of the decoder give the same scores and the same loss. *)
Theorem C136_dead : forall a h net net' l out loss, evaluation net -> evaluation net' -> same_but_dead a net net' -> Forall (fits a h) l -> forward a net h l = Ok (out, loss) ->
  exists out', forward a net' h l = Ok (out', loss) /\ dims out' = dims out /\ forall n k, (n < List.length l)%nat -> (k < width h)%nat -> at_ out' [n; k] = at_ out [n; k].
Proof.
  intros a h net net' l out loss E E' D F O. destruct (dead_forward a h net net' l (out, loss) E E' D F O) as ([out' loss'] & O' & D' & L & A). cbn [fst snd] in *. subst loss'. exists out'. auto.
Qed.
Print Assumptions C136_dead.

(** Such networks exist: [c] is added to the bias of every key. *)
Definition shift_head (c : R) (h : head) : head := MkHead (MkLinear (l_weight (h_key h)) (fun o => l_bias (h_key h) o + c)) (h_query h) (h_value h) (h_drop h).
Definition shift_attention (c : R) (m : attention) : attention := MkAttention (fun j => shift_head c (m_heads m j)) (m_proj m) (m_drop m).
Definition shift_keys (c : R) (net : network) : network :=
  MkNet (k_embed net) (map (fun b => MkEnc (shift_attention c (e_self b)) (e_ff b) (e_ln1 b) (e_ln2 b)) (k_enc net)) (k_state net)
    (map (fun b => MkDec (shift_attention c (d_self b)) (shift_attention c (d_cross b)) (d_ff b) (d_ln1 b) (d_ln2 b) (d_ln3 b)) (k_dec net)) (k_ln net) (k_head net) (k_gelu net).
(** For the ordered agent: the keys and queries of the self-attention of the decoder are erased. *)
Definition erase_head (h : head) : head := MkHead zero_lin zero_lin (h_value h) (h_drop h).
Definition erase_attention (m : attention) : attention := MkAttention (fun j => erase_head (m_heads m j)) (m_proj m) (m_drop m).
Definition erase_self (net : network) : network :=
  MkNet (k_embed net) (k_enc net) (k_state net) (map (fun b => MkDec (erase_attention (d_self b)) (d_cross b) (d_ff b) (d_ln1 b) (d_ln2 b) (d_ln3 b)) (k_dec net)) (k_ln net) (k_head net) (k_gelu net).
Lemma shift_like c m : like_attention m (shift_attention c m).
Proof. constructor; [reflexivity|]. intros j. constructor; reflexivity. Qed.
Lemma like_refl m : like_attention m m.
Proof. constructor; [reflexivity|]. intros j. constructor; reflexivity. Qed.
Lemma shift_dead a c net : same_but_dead a net (shift_keys c net).
Proof.
  constructor; try reflexivity; cbn [shift_keys k_enc k_dec].
  - induction (k_enc net) as [|b bs IH]; cbn [map]; constructor; [|exact IH]. split; [apply shift_like|]. repeat split; reflexivity.
  - induction (k_dec net) as [|b bs IH]; cbn [map]; constructor; [|exact IH]. split; [|split; [apply shift_like|repeat split; reflexivity]].
    destruct a; try apply shift_like. constructor; reflexivity.
Qed.
Lemma erase_dead net : same_but_dead ORDERED net (erase_self net).
Proof.
  constructor; try reflexivity; cbn [erase_self k_enc k_dec].
  - induction (k_enc net) as [|b bs IH]; constructor; [|exact IH]. split; [apply like_refl|]. repeat split; reflexivity.
  - induction (k_dec net) as [|b bs IH]; cbn [map]; constructor; [|exact IH]. split; [constructor; reflexivity|]. split; [apply like_refl|repeat split; reflexivity].
Qed.
Lemma shift_evaluation c net : evaluation net -> evaluation (shift_keys c net).
Proof.
  intros [E D]. split; cbn [shift_keys k_enc k_dec]; apply Forall_map; (eapply Forall_impl; [|eassumption]); intros b H; exact H.
Qed.
Lemma erase_evaluation net : evaluation net -> evaluation (erase_self net).
Proof.
  intros [E D]. split; cbn [erase_self k_enc k_dec]; [exact E|]. apply Forall_map. eapply Forall_impl; [|exact D]. intros b H. exact H.
Qed.
(** "Every weight can matter" is false, for every network: *)
Theorem C136_refuted : forall a h net l out loss c, evaluation net -> Forall (fits a h) l -> forward a net h l = Ok (out, loss) ->
  (exists out', forward a (shift_keys c net) h l = Ok (out', loss) /\ forall n k, (n < List.length l)%nat -> (k < width h)%nat -> at_ out' [n; k] = at_ out [n; k]) /\
  (a = ORDERED -> exists out', forward a (erase_self net) h l = Ok (out', loss) /\ forall n k, (n < List.length l)%nat -> (k < width h)%nat -> at_ out' [n; k] = at_ out [n; k]).
Proof.
  intros a h net l out loss c E F O. split.
  - destruct (C136_dead a h net (shift_keys c net) l out loss E (shift_evaluation c net E) (shift_dead a c net) F O) as (out' & O' & _ & A). eauto.
  - intros ->. destruct (C136_dead ORDERED h net (erase_self net) l out loss E (erase_evaluation net E) (erase_dead net) F O) as (out' & O' & _ & A). eauto.
Qed.
Print Assumptions C136_refuted.
(** A network with a block of each kind and a sample of the example round meet the hypotheses of C135 and C136, and
    the changed weights are others. *)
Example C136_example : let net := block_net (fun _ => 1) in evaluation net /\
  (exists r out loss, Forall (fits ORDERED Post) [r] /\ forward ORDERED net Post [r] = Ok (out, loss)) /\
  (forall b b' c, nth_error (k_enc net) 0 = Some b -> nth_error (k_enc (shift_keys c net)) 0 = Some b' -> c <> 0 -> l_bias (h_key (m_heads (e_self b') 3)) 5 <> l_bias (h_key (m_heads (e_self b) 3)) 5).
Proof.
  cbv zeta. split; [apply C78_example|]. split.
  - destruct (C52_example Post) as (r & R & _). assert (F : Forall (fits ORDERED Post) [r]) by (constructor; [now apply C52_samples_fit|constructor]).
    destruct (C52_shapes ORDERED (block_net (fun _ => 1)) Post [r] ltac:(discriminate) F) as (out & loss & E & _). exists r, out, loss. auto.
  - intros b b' c E E' Hc. injection E as <-. injection E' as <-. cbn. lra.
Qed.
