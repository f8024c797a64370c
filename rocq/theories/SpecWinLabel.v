(** Vocabulary for C113: the win a round ends with, and the samples about it. *)
From Coq Require Import ZArith List Bool String.
From Verif Require Import Base Process SpecRound Tensor SpecTensor.
Import ListNotations.
Open Scope Z_scope.

(** Action 1 of an own-turn or reaction sample is the win. *)
Definition WIN : Z := 1.

(** The result says that [p] won on a tile of [w]; [w] is [p] for a self-draw. *)
Definition won_by (e : event) (p w : Z) : Prop :=
  e_tag e = "AGARI"%string /\ attr_int e "who" = Some p /\ attr_int e "fromWho" = Some w.

(** The sample offers its player the win and its target is another action. *)
Definition misses_win (r : sample) (p : Z) : Prop :=
  r_player r = p /\ allowed_by r WIN /\ r_label r <> WIN.
