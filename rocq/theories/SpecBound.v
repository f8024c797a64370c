(** Vocabulary for C137: how large a score can get, computed from the last two layers only. *)
From Coq Require Import Reals List.
From Verif Require Import Tensor Network SpecAttention.
Open Scope R_scope.

(** The normalised vector has entries of size at most 8, the root of 64, before scale and shift. *)
Definition reach (net : network) (h : which) (k : nat) : R :=
  Rabs (l_bias (k_head net h) k) + total 64 (fun e => (8 * Rabs (n_scale (k_ln net) e) + Rabs (n_shift (k_ln net) e)) * Rabs (l_weight (k_head net h) k e)).
