(** Specification vocabulary for training runs: what is updated on, validated and saved,
    in which order. *)
From Coq Require Import ZArith List Bool String Permutation.
From Verif Require Import Base Process DataLoader Tensor TrainLoop.
Import ListNotations.
Open Scope Z_scope.

(** torch.randperm returns permutations. *)
Definition random_orders (rnd : Z -> nat -> list nat) : Prop := forall k n, Permutation (rnd k n) (seq 0 n).

(** [sel] is a choice of [size] different rows, or all of them in order when there are no
    more than that. *)
Definition selection (size : nat) (rows sel : list sample) : Prop :=
  ((List.length rows <= size)%nat /\ sel = rows) \/
  ((size < List.length rows)%nat /\ exists idx, NoDup idx /\ List.length idx = size /\ Forall2 (fun i r => nth_error rows i = Some r) idx sel).

(** No update uses more rows than this. *)
Definition row_limit : nat := 2250.

(** The events of one head: one update, in training mode, on a selection of its rows, none
    without rows. *)
Definition fed (h : head) (rows : list sample) (k : Z) (evs : list tevent) : Prop :=
  (rows = [] /\ evs = []) \/
  (rows <> [] /\ exists sel, selection row_limit rows sel /\ evs = [Update k Training h (columns_of sel)]).

(** The state of a run between two batches: the scheduler has counted all updates, and the
    model is in training mode. *)
Definition ready (s : tstate) : Prop := t_step s = t_sched s /\ t_mode s = Training.

(** Batch [k] (from 0) is the first to start at or after some multiple of 1000 games. *)
Definition due (bs : Z) (k : nat) : Prop := exists j, 1000 * j <= Z.of_nat k * bs < 1000 * j + bs.
(** All rows of a head, if it has any. *)
Definition whole (h : head) (rows : list sample) : list (head * columns) :=
  match rows with [] => [] | _ => [(h, columns_of rows)] end.
(** What the losses of a batch are computed from: every head with samples, on all its rows. *)
Definition evaluated (a : agent) (b : list game) (l : list (head * columns)) : Prop :=
  exists t, prepare_batches a b = Ok t /\ l = whole During (t_during t) ++ whole Discard (t_discard t) ++ whole Post (t_post t).
(** The batches a validation looks at: those of the directory up to the one that starts with game
    20 or later. *)
Definition leading (bs : Z) (all lead : list (list game)) : Prop :=
  exists more, all = lead ++ more /\ (Z.of_nat (List.length lead) - 2) * bs < 20 /\
    (more = [] \/ 20 <= (Z.of_nat (List.length lead) - 1) * bs).
(** [l] is what a validation on the directory [val] averages the losses of. *)
Definition validation (a : agent) (proc : string -> res game) (bs : Z) (val : list string) (l : list (head * columns)) : Prop :=
  exists all o d lead parts, iterate proc (S (List.length val)) (dl_init val bs) = Some (all, o, d) /\
    leading bs all lead /\ Forall2 (evaluated a) lead parts /\ l = List.concat parts /\ l <> [].
(** Validation takes place in evaluation mode. *)
Definition validated (a : agent) (proc : string -> res game) (bs : Z) (val : list string) (iter k : nat) (evs : list tevent) : Prop :=
  (due bs k /\ exists l, validation a proc bs val l /\ evs = [Validate iter k Evaluation l]) \/ (~ due bs k /\ evs = []).

Definition count (evs : list tevent) : Z := Z.of_nat (List.length evs).

(** The events of the batches from number [k] on, with update numbers from [z] to [z']. *)
Inductive iteration_trace (a : agent) (proc : string -> res game) (bs : Z) (val : list string) (iter : nat) : nat -> list (list game) -> Z -> list tevent -> Z -> Prop :=
| it_end k z : iteration_trace a proc bs val iter k [] z [] z
| it_batch k b batches z t d e f v rest z' :
    prepare_batches a b = Ok t ->
    fed During (t_during t) z d -> fed Discard (t_discard t) (z + count d) e -> fed Post (t_post t) (z + count d + count e) f ->
    validated a proc bs val iter k v ->
    iteration_trace a proc bs val iter (S k) batches (z + count d + count e + count f) rest z' ->
    iteration_trace a proc bs val iter k (b :: batches) z (d ++ e ++ f ++ v ++ rest) z'.

(** [m] iterations from number [iter]: all batches of the directory whose turn it is, then
    the checkpoint. *)
Inductive run_trace (a : agent) (proc : string -> res game) (bs : Z) (train : list (list string)) (val : list string) : nat -> nat -> Z -> list tevent -> Prop :=
| rt_end iter z : run_trace a proc bs train val O iter z []
| rt_iter m iter z files fuel batches d evs z' rest :
    nth_error train (iter mod List.length train) = Some files ->
    iterate proc fuel (dl_init files bs) = Some (batches, Ok tt, d) ->
    iteration_trace a proc bs val iter 0 batches z evs z' ->
    run_trace a proc bs train val m (S iter) z' rest ->
    run_trace a proc bs train val (S m) iter z (evs ++ Save iter :: rest).

(** The numbers with which the updates of a trace fix their learning rate. *)
Definition update_numbers (evs : list tevent) : list Z :=
  flat_map (fun e => match e with Update k _ _ _ => [k] | _ => [] end) evs.
