(** Vocabulary for C135 and C136: the transformer as formulas for one sample.  Vectors are functions of the
    number of the entry, histories functions of the position and the entry. *)
From Coq Require Import ZArith List Reals Permutation.
From Verif Require Import Tensor Network.
Import ListNotations.
Open Scope R_scope.

(** f 0 + ... + f (n-1) *)
Definition total (n : nat) (f : nat -> R) : R := fold_right Rplus 0 (map f (seq 0 n)).
(** A x + b, for [x] of size [n] *)
Definition applied (p : linear) (n : nat) (x : nat -> R) (o : nat) : R := l_bias p o + total n (fun e => x e * l_weight p o e).
(** Layer normalisation of a vector of size 64 *)
Definition average (x : nat -> R) : R := total 64 x / 64.
Definition variance (x : nat -> R) : R := average (fun e => (x e - average x) * (x e - average x)).
Definition normed (p : norm) (x : nat -> R) (d : nat) : R := (x d - average x) / sqrt (variance x + 1 / 100000) * n_scale p d + n_shift p d.

(** Attention: how well the key [k] answers the query [q]; the share of position [s] of [n]; the mean of the
    values with these shares; the eight heads, each with eight entries, side by side. *)
Definition match_score (h : head) (k q : nat -> R) : R := total 8 (fun c => applied (h_query h) 64 q c * applied (h_key h) 64 k c) / sqrt 8.
Definition share (h : head) (n : nat) (k : nat -> nat -> R) (q : nat -> R) (s : nat) : R :=
  exp (match_score h (k s) q) / total n (fun u => exp (match_score h (k u) q)).
Definition head_value (h : head) (n : nat) (k v : nat -> nat -> R) (q : nat -> R) (c : nat) : R :=
  total n (fun s => share h n k q s * applied (h_value h) 64 (v s) c).
Definition attended (m : attention) (n : nat) (k v : nat -> nat -> R) (q : nat -> R) (o : nat) : R :=
  applied (m_proj m) 64 (fun j => head_value (m_heads m (j / 8)%nat) n k v q (j mod 8)%nat) o.

(** The two-layer network after attention *)
Definition fed (gelu : R -> R) (f : feedforward) (x : nat -> R) (o : nat) : R := applied (f_down f) 256 (fun j => gelu (applied (f_up f) 64 x j)) o.

(** One block of the encoder, for a history of [n] positions; all blocks, one after the other *)
Definition enc_step (gelu : R -> R) (n : nat) (x : nat -> nat -> R) (b : enc_block) : nat -> nat -> R :=
  let r t := normed (e_ln1 b) (x t) in
  let y t d := x t d + attended (e_self b) n r r (r t) d in
  fun t d => y t d + fed gelu (e_ff b) (normed (e_ln2 b) (y t)) d.
Definition encoded (net : network) (n : nat) (x : nat -> nat -> R) : nat -> nat -> R := fold_left (enc_step (k_gelu net) n) (k_enc net) x.

(** One block of the decoder.  The self-attention looks at the history too, but for the ordered agent, where it
    looks at the state only, which is one position. *)
Definition dec_step (a : agent) (gelu : R -> R) (n : nat) (enc : nat -> nat -> R) (x : nat -> R) (b : dec_block) : nat -> R :=
  let r := normed (d_ln1 b) x in
  let y d := x d + match a with ORDERED => attended (d_self b) 1 (fun _ => r) (fun _ => r) r d | _ => attended (d_self b) n enc enc r d end in
  let z d := y d + attended (d_cross b) n enc enc (normed (d_ln2 b) y) d in
  fun d => z d + fed gelu (d_ff b) (normed (d_ln3 b) z) d.
Definition scored_by (a : agent) (net : network) (h : which) (n : nat) (enc : nat -> nat -> R) (state : nat -> R) (k : nat) : R :=
  applied (k_head net h) 64 (normed (k_ln net) (fold_left (dec_step a (k_gelu net) n enc) (k_dec net) state)) k.

(** [p] rearranges the positions 0 .. n-1. *)
Definition rearranges (n : nat) (p : nat -> nat) : Prop := Permutation (map p (seq 0 n)) (seq 0 n).

(** ** Weights without influence (C136) *)
(** Heads that differ only in the bias of the keys; attention layers made of such heads. *)
Record like_head (h h' : head) : Prop := {
  lh_key : l_weight (h_key h') = l_weight (h_key h); lh_query : h_query h' = h_query h; lh_value : h_value h' = h_value h }.
Record like_attention (m m' : attention) : Prop := { la_proj : m_proj m' = m_proj m; la_heads : forall j, like_head (m_heads m j) (m_heads m' j) }.
(** Attention layers that agree only in the values and the projection. *)
Record free_attention (m m' : attention) : Prop := { fa_proj : m_proj m' = m_proj m; fa_heads : forall j, h_value (m_heads m' j) = h_value (m_heads m j) }.
(** Networks of agent [a] that differ only in the biases of the keys and, for the ordered agent, in the keys and
    queries of the self-attention of the decoder. *)
Definition same_but_dead_enc (b b' : enc_block) : Prop :=
  like_attention (e_self b) (e_self b') /\ e_ff b' = e_ff b /\ e_ln1 b' = e_ln1 b /\ e_ln2 b' = e_ln2 b.
Definition same_but_dead_dec (a : agent) (b b' : dec_block) : Prop :=
  match a with ORDERED => free_attention (d_self b) (d_self b') | _ => like_attention (d_self b) (d_self b') end /\
  like_attention (d_cross b) (d_cross b') /\ d_ff b' = d_ff b /\ d_ln1 b' = d_ln1 b /\ d_ln2 b' = d_ln2 b /\ d_ln3 b' = d_ln3 b.
Record same_but_dead (a : agent) (net net' : network) : Prop := {
  sd_embed : k_embed net' = k_embed net; sd_state : k_state net' = k_state net; sd_ln : k_ln net' = k_ln net; sd_head : k_head net' = k_head net; sd_gelu : k_gelu net' = k_gelu net;
  sd_enc : Forall2 same_but_dead_enc (k_enc net) (k_enc net'); sd_dec : Forall2 (same_but_dead_dec a) (k_dec net) (k_dec net') }.
