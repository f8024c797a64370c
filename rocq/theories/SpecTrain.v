(** Specification vocabulary for checkpoints, training histories and the learning
    rate.  Directory contents are lists of file names. *)
From Coq Require Import ZArith List Bool String Ascii Permutation.
From Verif Require Import Base Train.
Import ListNotations.
Open Scope Z_scope.

(** [s] is a non-empty string of decimal digits with value [z] *)
Definition numeral (s : string) (z : Z) : Prop := s <> EmptyString /\ digits_acc 0 s = Some z.

(** The file [f] is the checkpoint of model [name] for iteration [z] *)
Definition checkpoint_of (name f : string) (z : Z) : Prop :=
  exists s, numeral s z /\ f = ("model_" ++ name ++ "_checkpoint_iter_" ++ s ++ ".pt")%string.

(** Every file that looks like a checkpoint of the model (same beginning, same
    ending) has a number in the middle. *)
Definition tidy (name : string) (files : list string) : Prop :=
  forall mid, In ("model_" ++ name ++ "_checkpoint_iter_" ++ mid ++ ".pt")%string files ->
  exists z, numeral mid z.

(** After [pre], the path has a checkpoint name of the model with the number [z] *)
Definition numbered_at (name path pre : string) (z : Z) : Prop :=
  exists digits post, numeral digits z /\
    path = (pre ++ "model_" ++ name ++ "_checkpoint_iter_" ++ digits ++ ".pt" ++ post)%string.

(** The number of the leftmost checkpoint name in the path *)
Definition first_number (name path : string) (z : Z) : Prop :=
  exists pre, numbered_at name path pre z /\
    forall pre' z', numbered_at name path pre' z' -> (String.length pre <= String.length pre')%nat.

(** The file begins and ends like a checkpoint of the model, and [z] is the first number
    in its path *)
Definition counts_as (name f : string) (z : Z) : Prop :=
  (exists mid, f = ("model_" ++ name ++ "_checkpoint_iter_" ++ mid ++ ".pt")%string) /\
  first_number name ("saved_models/" ++ f) z.

(** glob returns the names of the directory in some order *)
Definition listing (ls : list string -> list string) : Prop := forall l, Permutation (ls l) l.

Section S.
  Context {W O : Type}.
  Variable epoch : nat -> W * O -> W * O.
  Variable fresh : O.
  Variable ls : list string -> list string.
  Variable name : string.

  (** No file of the directory is incomplete *)
  Definition intact (d : disk W) : Prop := forall f, ~ In (f, Torn) d.

  (** Histories of training runs, each started on what the previous one left and
      stopped (or killed) at any moment when no file is half written.  The directory
      may hold other files, [others], from the beginning. *)
  Inductive history (others : disk W) : disk W -> Prop :=
  | h_none : history others others
  | h_run d m init ds d' : history others d -> train epoch fresh ls name m init d = Ok ds -> In d' ds ->
      intact d' -> history others d'.

  (** The parameters after iterations [i, i+1, ..., i+m-1] of one uninterrupted run *)
  Fixpoint steps (m i : nat) (s : W * O) : W * O :=
    match m with
    | Datatypes.O => s
    | S m' => steps m' (S i) (epoch (i mod 8) s)
    end.
End S.
