(** Model of several training processes that share the directory of checkpoints:
    MahjongAI/supervised_learning.py:56-185 run any number of times, in any interleaving
    and with processes killed at any moment.  A process is the outer loop of [train] as in
    Train.v, cut at the points where it touches the directory. *)
From Coq Require Import ZArith List Bool String.
From Verif Require Import Base Train.
Import ListNotations.

Section Side.
  Context {W O : Type}.
  (** One pass over the training data for a model (142-171), and a new optimizer and
      scheduler for it (94-118), see Train.v. *)
  Variable epoch : string -> nat -> W * O -> W * O.
  Variable fresh : string -> O.
  (** The order in which glob lists the directory. *)
  Variable ls : list string -> list string.

  (** Where a process is: before [find_latest_checkpoint] (123); between that and
      [torch.load] (125-136); in the loop before iteration [i] (144); while the checkpoint
      of iteration [i] is written (176-180); after the loop (185); ended by an error or
      killed. *)
  Inductive phase :=
  | Scanning
  | Loading (found : Z * option string)
  | Running (i : nat) (s : W * O)
  | Saving (i : nat) (s : W * O)
  | Done
  | Dead.
  (** [pr_init] is the randomly initialised model, [pr_left] the number of iterations the
      process still has to do. *)
  Record proc := MkProc { pr_name : string; pr_init : W; pr_left : nat; pr_phase : phase }.
  Definition launched (name : string) (init : W) (m : nat) : proc := MkProc name init m Scanning.

  Definition loaded (d : disk W) (p : proc) (found : Z * option string) : phase :=
    match found with
    | (_, None) => Running 0 (pr_init p, fresh (pr_name p))
    | (k, Some path) =>
        match strip_prefix (save_dir ++ "/") path with
        | Some f => match disk_read d f with
                    | Some (Full w) => Running (S (Z.to_nat k)) (w, fresh (pr_name p))
                    | _ => Dead
                    end
        | None => Dead
        end
    end.

  (** What the process does next, on the directory [d]. *)
  Definition advance (d : disk W) (p : proc) : disk W * proc :=
    match pr_phase p with
    | Scanning => (d, MkProc (pr_name p) (pr_init p) (pr_left p) (Loading (find_latest (pr_name p) save_dir (ls (map fst d)))))
    | Loading found => (d, MkProc (pr_name p) (pr_init p) (pr_left p) (loaded d p found))
    | Running i s =>
        match pr_left p with
        | Datatypes.O => (d, MkProc (pr_name p) (pr_init p) 0 Done)
        | S m => (disk_write d (ckpt (pr_name p) i) Torn,
                  MkProc (pr_name p) (pr_init p) m (Saving i (epoch (pr_name p) (i mod 8) s)))
        end
    | Saving i s => (disk_write d (ckpt (pr_name p) i) (Full (fst s)),
                     MkProc (pr_name p) (pr_init p) (pr_left p) (Running (S i) s))
    | Done | Dead => (d, p)
    end.

  (** The scheduler lets process [k] go on, or kills it. *)
  Inductive move := Go (k : nat) | Kill (k : nat).
  Definition mover (m : move) : nat := match m with Go k | Kill k => k end.
  Definition act (w : disk W * list proc) (m : move) : disk W * list proc :=
    match nth_error (snd w) (mover m) with
    | None => w
    | Some p =>
        match m with
        | Go k => let (d', p') := advance (fst w) p in (d', upd (snd w) k (fun _ => p'))
        | Kill k => (fst w, upd (snd w) k (fun _ => MkProc (pr_name p) (pr_init p) (pr_left p) Dead))
        end
    end.
  Definition run (w : disk W * list proc) (schedule : list move) : disk W * list proc := fold_left act schedule w.
End Side.
Arguments phase : clear implicits.
Arguments proc : clear implicits.
