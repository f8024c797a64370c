(** Specification vocabulary for the encoder input (C50, C51, C76, C77). *)
From Coq Require Import ZArith List Bool.
From Verif Require Import SpecTokens.
Open Scope Z_scope.

Definition actor (e : pub_event) : option Z :=
  match e with EvDiscard w _ _ => Some w | EvCall w _ => Some w | EvRiichi w => Some w | EvDora _ => None end.
Definition with_actor (w : Z) (e : pub_event) : pub_event :=
  match e with EvDiscard _ t f => EvDiscard w t f | EvCall _ c => EvCall w c | EvRiichi _ => EvRiichi w | EvDora t => EvDora t end.
(** How many discards, calls and riichi declarations among [evs] are player [w]'s. *)
Definition deeds (evs : list pub_event) (w : Z) : Z :=
  Z.of_nat (length (filter (fun e => match actor e with Some v => Z.eqb v w | None => false end) evs)).
