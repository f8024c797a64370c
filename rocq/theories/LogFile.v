(** Model of the training log: MahjongAI/supervised_learning.py:21-24 (the file is created,
    or emptied, when the module is loaded) and 210-215 (every message is appended), for any
    number of processes that run at the same time in one directory. *)
From Coq Require Import List Bool String.
From Verif Require Import Base ScrapeRun.
Import ListNotations.
Open Scope string_scope.

Definition newline_text : string := String newline EmptyString.
(** supervised_learning.py:22: [stamp] is the text strftime gives for the second in which
    the module is loaded. *)
Definition log_name (stamp : string) : string := "training_log_" ++ stamp ++ ".txt".

(** What happens: process [k] loads the module, at a time with the text [stamp], or logs a
    line.  A line is the time in brackets and the message (214). *)
Inductive logged := Load (k : nat) (stamp : string) | Line (k : nat) (time message : string).
Definition line_text (time message : string) : string := "[" ++ time ++ "] " ++ message ++ newline_text.

(** The file each process writes to, and the files. *)
Definition log_state : Type := (nat -> option string) * fs.
Definition log_step (s : log_state) (e : logged) : log_state :=
  match e with
  | Load k stamp => (fun j => if Nat.eqb j k then Some (log_name stamp) else fst s j,
                     write (log_name stamp) ("Training log started" ++ newline_text) (snd s))
  | Line k time message =>
      match fst s k with
      | Some f => (fst s, write f ((match snd s f with Some old => old | None => EmptyString end) ++ line_text time message) (snd s))
      | None => s
      end
  end.
Definition log_run (d : fs) (es : list logged) : log_state := fold_left log_step es (fun _ => None, d).
