(** Specification vocabulary for training processes that share a directory. *)
From Coq Require Import ZArith List Bool String.
From Verif Require Import Base Train SideRuns.
Import ListNotations.

Section S.
  Context {W O : Type}.

  (** Every file that begins and ends like a checkpoint of one of the nine models is one:
      between beginning and end it has a number as [train] writes it. *)
  Definition orderly (d : disk W) : Prop := forall f b mid, In f (map fst d) -> In b model_names ->
    f = ("model_" ++ b ++ "_checkpoint_iter_" ++ mid ++ ".pt")%string -> exists i, mid = dec i.

  (** The moves of the processes of model [a]. *)
  Definition moves_of (a : string) (ps : list (proc W O)) (m : move) : bool :=
    match nth_error ps (mover m) with Some p => String.eqb (pr_name p) a | None => false end.

  (** The process has started and is not finished. *)
  Definition active (p : proc W O) : Prop :=
    match pr_phase p with Scanning | Done | Dead => False | Loading _ | Running _ _ | Saving _ _ => True end.
  (** No two processes of model [a] are active. *)
  Definition one_at_most (a : string) (ps : list (proc W O)) : Prop :=
    forall j k p q, nth_error ps j = Some p -> nth_error ps k = Some q -> pr_name p = a -> pr_name q = a ->
    active p -> active q -> j = k.
End S.
