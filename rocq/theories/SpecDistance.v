(** Specification vocabulary for distances to complete hands.  Independent of the solver. *)
From Coq Require Import ZArith List Bool.
Import ListNotations.
Open Scope Z_scope.

(** How many tiles of the target [w] are missing in [h]: the number of draws needed
    to turn [h] into [w], discarding what [w] does not use. *)
Definition missing (h w : list Z) : Z :=
  fold_right (fun t a => Z.max 0 (nth t w 0 - nth t h 0) + a) 0 (seq 0 34).

(** At most four copies of each type exist. *)
Definition physical (w : list Z) : Prop := forall t, (t < 34)%nat -> nth t w 0 <= 4.

(** How many different types occur in a hand, and how many occur twice or more *)
Definition kinds (h : list Z) : nat := length (filter (fun t => 1 <=? nth t h 0) (seq 0 34)).
Definition doubles (h : list Z) : nat := length (filter (fun t => 2 <=? nth t h 0) (seq 0 34)).
