(** Specification vocabulary for the data loader: which games a directory holds. *)
From Coq Require Import ZArith List Bool String.
From Verif Require Import Base.
Import ListNotations.
Open Scope Z_scope.

(** The games of the files that could be processed, in listing order *)
Definition games {G} (proc : string -> res G) (files : list string) : list G :=
  flat_map (fun f => match proc f with Ok g => [g] | Err _ => [] end) files.

(** No file makes the loader abort *)
Definition no_abort {G} (proc : string -> res G) (files : list string) : Prop :=
  forall f, In f files -> proc f <> Err AssertionError /\ proc f <> Err SystemExit.

(** A list cut into pieces of [n], the last one possibly shorter (or empty) *)
Definition batched {G} (n : nat) (l : list G) (bs : list (list G)) : Prop :=
  List.concat bs = l /\
  exists full last, bs = full ++ last /\ (List.length last <= 1)%nat /\
    Forall (fun b => List.length b = n) full /\ Forall (fun b => (List.length b <= n)%nat) last.
