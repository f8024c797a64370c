(** The sum of embedding rows (transformer.py:258-268, transformer_conv_ordered.py:262-271)
    over the real numbers.  [w_*] are the trainable tables, arbitrary; the player and the
    position table are fixed (transformer.py:144-176).  float32 rounding is not modelled.
    The code adds every row multiplied by a mask of 0 or 1; rows with mask 0 are left
    out. *)
From Coq Require Import ZArith List Bool Reals.
From Verif Require Import Base Constants Tensor Encoder.
Import ListNotations.
Open Scope R_scope.

Record weights := MkWeights {
  w_type : Z -> nat -> R; w_tile : Z -> nat -> R; w_tsumogiri : Z -> nat -> R; w_during : Z -> nat -> R; w_post : Z -> nat -> R }.

(** transformer.py:156-176 [_get_player_encoding]: row [k], column [d] of 64 *)
Definition player_row (k : Z) (d : nat) : R :=
  let base := Rpower 10000 (INR (2 * (d / 2)) / 64) in
  let angle := IZR k * (2 * PI) / 4 in
  if Nat.even d then sin (angle / base) else cos (angle / base).

(** transformer.py:144-154 [_get_position_encoding] *)
Definition position_row (k : Z) (d : nat) : R :=
  let div := exp (INR (2 * (d / 2)) * - (ln 10000 / 64)) in
  if Nat.even d then sin (IZR k * div) else cos (IZR k * div).

Definition row_of (w : weights) (k : table * Z) (d : nat) : R :=
  match fst k with
  | TType => w_type w (snd k) d
  | TTile => w_tile w (snd k) d
  | TPlayer => player_row (snd k) d
  | TTsumogiri => w_tsumogiri w (snd k) d
  | TPosition => position_row (snd k) d
  | TDuring => w_during w (snd k) d
  | TPost => w_post w (snd k) d
  end.
Definition row_sum (w : weights) (l : list (table * Z)) (d : nat) : R := fold_right (fun k x => row_of w k d + x) 0 l.

(** The input of the first block at position [pos]. *)
Definition embed (a : agent) (w : weights) (player : Z) (pos : nat) (t : Z) : res (nat -> R) :=
  l <- encode_token a player pos t ;; Ok (row_sum w l).
