(** Model of the data directories of MahjongAI/supervised_learning.py:134-147 and of the
    paths utils/dataloader.py:9-33 processes. *)
From Coq Require Import ZArith List Bool String.
From Verif Require Import Base Process DataLoader Tensor Train TrainLoop.
Import ListNotations.
Open Scope Z_scope.

(** supervised_learning.py:134-137: the training directories, [range(2012, 2020)] *)
Definition train_dirs : list string := map (fun yr => ("data/processed/" ++ dec yr ++ "/")%string) (seq 2012 8).
(** supervised_learning.py:138-140 *)
Definition val_dir : string := "data/processed/2021/".
(** dataloader.py:12 and 31-33: the paths processed, for what [os.listdir] returns *)
Definition files_of (ls : string -> list string) (d : string) : list string := map (path_join d) (ls d).
(** supervised_learning.py:134-187: a run on these directories *)
Definition run_dirs (a : agent) (proc : string -> res game) (rnd : Z -> nat -> list nat) (fuel : nat) (bs : Z) (m start : nat)
  (ls : string -> list string) : res tstate :=
  run a proc rnd fuel bs m start (map (files_of ls) train_dirs) (files_of ls val_dir).
