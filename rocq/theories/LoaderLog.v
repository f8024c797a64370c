(** Model of the messages of the data loader: dataloader.py:20-21, 51 and 58-63.  The text
    of a message is the loader's description followed by the number of the batch; the
    description (dataloader.py:62-63) depends on the path and the batch size alone and is
    left out, so a message is its number. *)
From Coq Require Import ZArith List Bool String.
From Verif Require Import Base DataLoader.
Import ListNotations.

Section Log.
  Context {G : Type}.
  Variable proc : string -> res G.

  (** What a program may do with a loader: ask for a batch (dataloader.py:20-53) or reset
      it (dataloader.py:58-60). *)
  Inductive call := Next | Reset.

  (** dataloader.py:20-53: the outcome, the message passed to [log_func] at line 51, which
      is reached when neither StopIteration nor SystemExit is raised, and the loader. *)
  Definition next_logged (d : loader) : res (list G) * list nat * loader :=
    match dl_next proc d with
    | (Ok b, d') => (Ok b, [dl_count d'], d')
    | (Err e, d') => (Err e, [], d')
    end.

  (** A history of calls: the outcomes of the calls of [__next__] and all messages. *)
  Fixpoint session (d : loader) (calls : list call) : list (res (list G)) * list nat * loader :=
    match calls with
    | [] => ([], [], d)
    | Reset :: r => session (dl_reset d) r
    | Next :: r =>
        let '(o, m, d') := next_logged d in
        let '(os, ms, d'') := session d' r in (o :: os, m ++ ms, d'')
    end.

  (** [for batch in loader] followed by [reset], [n] times over: the messages of each
      pass.  [None] if a pass ends with an error or takes more than [fuel] calls. *)
  Fixpoint pass_logged (fuel : nat) (d : loader) : option (list nat * loader) :=
    match fuel with
    | O => None
    | S f =>
        match next_logged d with
        | (Err StopIteration, _, d') => Some ([], d')
        | (Err _, _, _) => None
        | (Ok _, m, d') => match pass_logged f d' with Some (ms, d'') => Some (m ++ ms, d'') | None => None end
        end
    end.
  Fixpoint passes_logged (fuel n : nat) (d : loader) : option (list (list nat)) :=
    match n with
    | O => Some []
    | S n' => match pass_logged fuel d with
              | Some (m, d') => match passes_logged fuel n' (dl_reset d') with Some r => Some (m :: r) | None => None end
              | None => None
              end
    end.
End Log.
