(** Vocabulary for C135: the network for the state features as formulas for one sample. *)
From Coq Require Import ZArith List Bool Reals PeanoNat.
From Verif Require Import Tensor Network SpecNetwork SpecAttention.
Import ListNotations.
Open Scope R_scope.

Definition positive_part (x : R) : R := Rmax x 0.
(** The count of tile [k] in plane [c]; [p] numbers the players or the copies. *)
Definition count_of (f : features) (c k p : nat) : R := IZR (nth p (nth k (nth c (f_x1 f) []) []) 0%Z).
(** The entry before [k], the entry at [k] and the entry after [k] of a row of [n], for u = 0, 1, 2; 0 outside the row *)
Definition near (n : nat) (g : nat -> R) (k u : nat) : R :=
  if Nat.eqb (k + u) 0 then 0 else if Nat.ltb (k + u - 1) n then g (k + u - 1)%nat else 0.
(** A convolution along the tiles, and one along the tiles and the last dimension, of [cin] planes *)
Definition along (p : conv1) (cin : nat) (x : nat -> nat -> nat -> R) (o k m : nat) : R :=
  c1_bias p o + total cin (fun q => total 3 (fun u => near 37 (fun s => x q s m) k u * c1_weight p o q u)).
Definition across (p : conv2) (cin : nat) (x : nat -> nat -> nat -> R) (o k m : nat) : R :=
  c2_bias p o + total cin (fun q => total 3 (fun u => total 3 (fun v => near 37 (fun s => near 4 (fun t => x q s t) m v) k u * c2_weight p o q u v))).
Definition clipped (x : nat -> nat -> nat -> R) (o k m : nat) : R := positive_part (x o k m).
(** The two convolutions of each agent, and the number of planes they make *)
Definition seen (a : agent) (s : state_net) (x : nat -> nat -> nat -> R) : nat -> nat -> nat -> R :=
  match a with
  | TF => clipped (along (s_conv_b s) 8 (clipped (along (s_conv_a s) 3 x)))
  | _ => clipped (across (s_conv2_b s) 8 (clipped (across (s_conv2_a s) (channels a) x)))
  end.
Definition made (a : agent) : nat := match a with TF | ORDERED => 16 | CONV | LARGE => 8 end.
(** Planes of 37 rows of [d] entries, written one after the other; two vectors, the first of size [n], side by side *)
Definition in_a_row (d : nat) (x : nat -> nat -> nat -> R) (j : nat) : R := x (j / (37 * d))%nat (j mod (37 * d) / d)%nat (j mod (37 * d) mod d)%nat.
Definition beside (n : nat) (x y : nat -> R) (j : nat) : R := if Nat.ltb j n then x j else y (j - n)%nat.
(** The vector of size 64 made of the state features: the planes after the convolutions and the planes themselves
    are condensed to 64 numbers, the 7 rows of 4 and the last 4 features are put beside them, and two layers follow. *)
Definition state_vector (a : agent) (s : state_net) (f : features) : nat -> R :=
  let n := (made a * 37 * depth a)%nat in
  let planes := beside n (in_a_row (depth a) (seen a s (count_of f))) (in_a_row (depth a) (count_of f)) in
  let condensed j := positive_part (applied (s_fc1 s) (n + channels a * 37 * depth a) planes j) in
  let rows j := IZR (nth (j mod 4) (nth (j / 4) (f_x2 f) []) 0%Z) in
  let all := beside 92 (beside 64 condensed rows) (fun j => IZR (nth j (f_x3 f) 0%Z)) in
  fun d => positive_part (applied (s_main2 s) 64 (fun j => positive_part (applied (s_main1 s) 96 all j)) d).
