(** Model of MahjongAI/utils/dataloader.py and of estimate_loss
    (MahjongAI/supervised_learning.py:188-207).

    What [process] does with a file is the argument [proc]: it returns the two
    lists of a game (type [G]) or raises.  The directory listing is read once, when
    the loader is created, so it is the list [dl_files] (any order).  The log
    function has no effect on the result and is left out. *)
From Coq Require Import ZArith List Bool String.
From Verif Require Import Base.
Import ListNotations.
Open Scope Z_scope.

Section Loader.
  Context {G : Type}.
  Variable proc : string -> res G.

  (** dataloader.py:9-15 *)
  Record loader := mkLoader { dl_files : list string; dl_cur : nat; dl_bs : Z; dl_count : nat }.
  Definition dl_init (files : list string) (bs : Z) : loader := mkLoader files 0 bs 0.

  (** dataloader.py:28-52: the while loop.  [rest] is [file_list[current_index:]];
      returned: the outcome and the number of files consumed.  Only [Exception]
      subclasses are caught: [SystemExit] raised inside [process] would pass through. *)
  Fixpoint fill (bs : Z) (rest : list string) (acc : list G) : res (list G) * nat :=
    match rest with
    | [] => (Ok acc, 0%nat)
    | f :: r =>
        if Z.of_nat (List.length acc) <? bs then
          match proc f with
          | Ok g => let (o, n) := fill bs r (acc ++ [g]) in (o, S n)
          | Err AssertionError => (Err SystemExit, 1%nat)
          | Err SystemExit => (Err SystemExit, 1%nat)
          | Err _ => let (o, n) := fill bs r acc in (o, S n)
          end
        else (Ok acc, 0%nat)
    end.

  (** dataloader.py:20-56 [__next__] *)
  Definition dl_next (d : loader) : res (list G) * loader :=
    if Nat.leb (List.length (dl_files d)) (dl_cur d) then
      (Err StopIteration, mkLoader (dl_files d) (dl_cur d) (dl_bs d) (S (dl_count d)))
    else
      let (o, n) := fill (dl_bs d) (skipn (dl_cur d) (dl_files d)) [] in
      (o, mkLoader (dl_files d) (dl_cur d + n) (dl_bs d) (S (dl_count d))).

  (** dataloader.py:58-60 [reset] *)
  Definition dl_reset (d : loader) : loader := mkLoader (dl_files d) 0 (dl_bs d) (dl_count d).

  (** [for batch in loader]: the batches seen by the loop body, how the iteration
      ended (StopIteration is the normal end) and the loader afterwards; [None] if
      [fuel] calls of [__next__] were not enough. *)
  Fixpoint iterate (fuel : nat) (d : loader) : option (list (list G) * res unit * loader) :=
    match fuel with
    | O => None
    | S f =>
        match dl_next d with
        | (Err StopIteration, d') => Some ([], Ok tt, d')
        | (Err e, d') => Some ([], Err e, d')
        | (Ok b, d') => match iterate f d' with
                        | Some (bs, o, d'') => Some (b :: bs, o, d'')
                        | None => None
                        end
        end
    end.

  (** supervised_learning.py:194-203: the loop of [estimate_loss], which leaves the
      loader when [batch_count * batch_size >= 20], and the reset after it.  [k] is
      [batch_count].  The losses computed from a batch are [losses], one entry per loss;
      the total is a list of them, the mean is [average] in TrainLoop.v. *)
  Context {L : Type}.
  Variable losses : list G -> res (list L).
  Fixpoint val_loop (fuel : nat) (bs : Z) (k : nat) (d : loader) : option (list (list G) * res (list L) * loader) :=
    match fuel with
    | O => None
    | S f =>
        match dl_next d with
        | (Err StopIteration, d') => Some ([], Ok [], d')
        | (Err e, d') => Some ([], Err e, d')
        | (Ok b, d') =>
            match losses b with
            | Err e => Some ([b], Err e, d')
            | Ok n =>
                if 20 <=? Z.of_nat k * bs then Some ([b], Ok n, d')
                else match val_loop f bs (S k) d' with
                     | Some (l, Ok m, d'') => Some (b :: l, Ok (n ++ m), d'')
                     | Some (l, Err e, d'') => Some (b :: l, Err e, d'')
                     | None => None
                     end
            end
        end
    end.

  (** supervised_learning.py:188-207: the batches evaluated, the outcome (the
      losses averaged; division by zero when there are none) and the loader. *)
  Definition estimate_loss (fuel : nat) (bs : Z) (d : loader) : option (list (list G) * res (list L) * loader) :=
    match val_loop fuel bs 0 d with
    | Some (l, Ok [], d') => Some (l, Err ZeroDivisionError, dl_reset d')
    | Some (l, Ok n, d') => Some (l, Ok n, dl_reset d')
    | Some (l, Err e, d') => Some (l, Err e, d')
    | None => None
    end.
End Loader.
