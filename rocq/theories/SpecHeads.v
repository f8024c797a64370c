(** Vocabulary for C138: the same network with other heads. *)
From Coq Require Import Reals List ZArith.
From Verif Require Import Tensor Network.
Open Scope R_scope.

Definition with_heads (net : network) (heads : which -> linear) : network :=
  MkNet (k_embed net) (k_enc net) (k_state net) (k_dec net) (k_ln net) heads (k_gelu net).
(** Two heads agree in the weights of output [k]. *)
Definition same_row (p q : linear) (k : nat) : Prop := l_bias q k = l_bias p k /\ forall e, (e < 64)%nat -> l_weight q k e = l_weight p k e.
(** Output [k] is allowed in some sample of the batch. *)
Definition ever_allowed (l : list sample) (k : nat) : Prop := exists r, In r l /\ nth k (r_mask r) 0%Z = 1%Z.
(** The head [p] with [c] added to the bias of output [k] *)
Definition raised (p : linear) (k : nat) (c : R) : linear := MkLinear (l_weight p) (fun j => if Nat.eqb j k then l_bias p j + c else l_bias p j).
