(** Vocabulary for C112: for whom a decision is made. *)
From Coq Require Import ZArith List Bool.
From Verif Require Import Base Process SpecMeld SpecRound Tensor.
Import ListNotations.
Open Scope Z_scope.

(** Up to the first discard or call, all plays are the dealer's (and a call is a real meld). *)
Fixpoint dealer_opens (d : Z) (pls : list play) : Prop :=
  match pls with
  | [] => True
  | PlDraw w _ :: r | PlReach1 w :: r => w = d /\ dealer_opens d r
  | PlDiscard w _ :: _ => w = d
  | PlCall w c :: _ => w = d /\ in_range c
  | PlReach2 _ :: _ | PlDora _ :: _ => False
  end.

(** The score, in the list of scores the network is given, of the player the sample belongs to. *)
Definition own_score (r : sample) : Z := nth (Z.to_nat (r_player r)) (nth 0 (f_x2 (r_state r)) []) 0.
