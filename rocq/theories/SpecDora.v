(** Vocabulary for C115: the indicator a round starts with. *)
From Coq Require Import ZArith List Bool String.
From Verif Require Import Base Process SpecRound Tensor.
Import ListNotations.
Open Scope Z_scope.

(** The first indicators are of different types, so different tiles are dora. *)
Definition other_dora (e e' : event) : Prop := first_indicator e / 4 <> first_indicator e' / 4.

(** The network is given the same input for both samples, and they are of the same player. *)
Definition same_input (r r' : sample) : Prop :=
  r_tokens r = r_tokens r' /\ r_state r = r_state r' /\ r_mask r = r_mask r' /\ r_player r = r_player r'.
