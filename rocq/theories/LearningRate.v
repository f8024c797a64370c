(** Model of the learning-rate multiplier of MahjongAI/supervised_learning.py:96-118,
    in real arithmetic (floating-point rounding is not modelled). *)
From Coq Require Import ZArith Reals.
Open Scope R_scope.

(** supervised_learning.py:97-98 *)
Definition warmup_steps : Z := 1000.
Definition total_steps : Z := 1000000.

(** supervised_learning.py:103-117 *)
Definition lr_lambda (step : Z) : R :=
  if Z.ltb step warmup_steps then IZR step / IZR (Z.max 1 warmup_steps)
  else 0.5 * (1 + cos (PI * IZR (step - warmup_steps) / IZR (Z.max 1 (total_steps - warmup_steps)))).
