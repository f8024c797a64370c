(** Model of the training loop (MahjongAI/supervised_learning.py:143-187), of the
    generator [forward] that feeds it (MahjongAI/agents/transformer.py:51-104 and the same
    method of the other agents, transformer_conv_ordered.py:50-107) and of the parameter
    update of torch.optim.AdamW.

    Not modelled here: the gradients (an update is an arbitrary function of the selected
    rows), the text of the log lines, and devices. *)
From Coq Require Import ZArith List Bool String Reals.
From Verif Require Import Base Constants Naki Decision Process DataLoader Tensor.
Import ListNotations.
Open Scope Z_scope.

(** ** forward *)

(** The tensors of one head: one list per tensor, with the samples along dimension 0.
    Only transformer_conv_ordered.py has the last one. *)
Record columns := MkColumns {
  c_tokens : list (list Z);
  c_x1 : list (list (list (list Z))); c_x2 : list (list (list Z)); c_x3 : list (list Z);
  c_mask : list (list Z); c_y : list Z; c_player : list Z }.

(** transformer.py:729-741 and its repetitions: every tensor is stacked from the same
    list of half-turns. *)
Definition columns_of (rows : list sample) : columns :=
  MkColumns (map r_tokens rows) (map (fun r => f_x1 (r_state r)) rows) (map (fun r => f_x2 (r_state r)) rows)
    (map (fun r => f_x3 (r_state r)) rows) (map r_mask rows) (map r_label rows) (map r_player rows).

(** [tensor[idx]] with a tensor of indices *)
Definition pick {A} (l : list A) (idx : list nat) : res (list A) :=
  mapM (fun i => match nth_error l i with Some x => Ok x | None => Err IndexError end) idx.

(** transformer.py:74-86, transformer_conv_ordered.py:73-87: [perm] is what
    torch.randperm returned. *)
Definition subsample (size : nat) (perm : list nat) (c : columns) : res columns :=
  let idx := firstn size perm in
  tk <- pick (c_tokens c) idx ;;
  x1 <- pick (c_x1 c) idx ;; x2 <- pick (c_x2 c) idx ;; x3 <- pick (c_x3 c) idx ;;
  m <- pick (c_mask c) idx ;; y <- pick (c_y c) idx ;; p <- pick (c_player c) idx ;;
  Ok (MkColumns tk x1 x2 x3 m y p).

Inductive head := During | Discard | Post.

(** transformer.py:70-86: nothing for a head without samples; a random part of the rows
    when [sample] is set and there are more than [size]. *)
Definition head_input (sample : bool) (size : nat) (perm : nat -> list nat) (c : columns) : res (option columns) :=
  let n := List.length (c_tokens c) in
  if Nat.eqb n 0 then Ok None
  else if sample && Nat.ltb size n then c' <- subsample size (perm n) c ;; Ok (Some c')
  else Ok (Some c).

(** transformer.py:66-69: the heads in the order in which [forward] yields *)
Definition heads (t : tensors) : list (head * columns) :=
  [(During, columns_of (t_during t)); (Discard, columns_of (t_discard t)); (Post, columns_of (t_post t))].

(** transformer.py:56 *)
Definition sample_size : nat := 2250.

(** ** train *)

(** The flag [training] of the modules, which decides whether dropout is active *)
Inductive mode := Training | Evaluation.

(** What a run does, in order: a parameter update (with the value of the scheduler's step
    counter that fixed the learning rate, and the mode of the model), a validation (with
    the mode of the model and what the losses are computed from), a checkpoint. *)
Inductive tevent :=
| Update (sched : Z) (m : mode) (h : head) (c : columns)
| Validate (iter batch : nat) (m : mode) (l : list (head * columns))
| Save (iter : nat).

Section Loop.
  Variable a : agent.
  (** [process] of a file *)
  Variable proc : string -> res game.
  (** what torch.randperm returns for the [k]-th update *)
  Variable rnd : Z -> nat -> list nat.

  Record tstate := MkT {
    t_step : Z;                  (* current_step, 118 *)
    t_sched : Z;                 (* scheduler.last_epoch *)
    t_loss : option (head * columns);  (* the variable [loss], once it is bound *)
    t_val : @loader;             (* val_dataloader *)
    t_mode : mode;               (* model.training *)
    t_trace : list tevent }.

  (** supervised_learning.py:153-162: one round of the inner loop *)
  Definition head_step (s : tstate) (hc : head * columns) : res tstate :=
    let (h, c) := hc in
    i <- head_input true sample_size (rnd (t_step s)) c ;;
    match i with
    | None => Ok s
    | Some c' => Ok (MkT (t_step s + 1) (t_sched s + 1) (Some (h, c')) (t_val s) (t_mode s) (t_trace s ++ [Update (t_sched s) (t_mode s) h c']))
    end.

  (** supervised_learning.py:196-199: what the losses of a validation batch are computed
      from, in order.  Without [sample] the random order is not used. *)
  Definition val_losses (b : list game) : res (list (head * columns)) :=
    t <- prepare_batches a b ;;
    l <- mapM (fun hc => i <- head_input false sample_size (seq 0) (snd hc) ;;
                         Ok (match i with Some c => [(fst hc, c)] | None => [] end)) (heads t) ;;
    Ok (List.concat l).

  (** supervised_learning.py:169 *)
  Definition validates (bs : Z) (batch : nat) : bool := Z.of_nat batch * bs mod 1000 <? bs.

  (** supervised_learning.py:192, 207: model.eval(), model.train() *)
  Definition set_mode (m : mode) (s : tstate) : tstate := MkT (t_step s) (t_sched s) (t_loss s) (t_val s) m (t_trace s).

  (** supervised_learning.py:150-173, and the mode set by 192 and 207: one batch.  The estimate comes first, then
      [loss.item()]. *)
  Definition batch_step (fuel : nat) (bs : Z) (iter : nat) (s : tstate) (kb : nat * list game) : res tstate :=
    let (k, b) := kb in
    t <- prepare_batches a b ;;
    s <- foldM head_step s (heads t) ;;
    if validates bs k then
      let s := set_mode Evaluation s in
      match estimate_loss proc val_losses fuel bs (t_val s) with
      | None => Err RuntimeError
      | Some (_, Err e, _) => Err e
      | Some (_, Ok l, v) =>
          match t_loss s with
          | None => Err UnboundLocalError
          | Some _ => Ok (set_mode Training (MkT (t_step s) (t_sched s) (t_loss s) v (t_mode s) (t_trace s ++ [Validate iter k (t_mode s) l])))
          end
      end
    else Ok s.

  (** supervised_learning.py:143-185: one iteration.  [fuel] bounds the number of
      [__next__] calls of the loaders; [None] in [estimate_loss] is the same bound. *)
  Definition iteration (fuel : nat) (bs : Z) (iter : nat) (d : @loader) (s : tstate) : res (tstate * @loader) :=
    match iterate proc fuel d with
    | None => Err RuntimeError
    | Some (batches, o, d') =>
        s <- foldM (batch_step fuel bs iter) s (enumerate batches) ;;
        _ <- o ;;
        Ok (MkT (t_step s) (t_sched s) (t_loss s) (t_val s) (t_mode s) (t_trace s ++ [Save iter]), dl_reset d')
    end.

  (** supervised_learning.py:143-185: [m] iterations from [iter] on; loader [iter % 8] *)
  Fixpoint run_iterations (fuel : nat) (bs : Z) (m iter : nat) (ds : list (@loader)) (s : tstate) : res tstate :=
    match m with
    | O => Ok s
    | S m' =>
        match nth_error ds (iter mod List.length ds) with
        | None => Err ZeroDivisionError
        | Some d =>
            '(s, d') <- iteration fuel bs iter d s ;;
            run_iterations fuel bs m' (S iter) (firstn (iter mod List.length ds) ds ++ d' :: skipn (S (iter mod List.length ds)) ds) s
        end
    end.

  (** supervised_learning.py:93-118, 134-141: a new run; new modules are in training mode *)
  Definition run (fuel : nat) (bs : Z) (m start : nat) (train : list (list string)) (val : list string) : res tstate :=
    run_iterations fuel bs m start (map (fun f => dl_init f bs) train) (MkT 0 0 None (dl_init val bs) Training []).
End Loop.

(** supervised_learning.py:193, 198-199, 207: [total_loss / num_batches], in real arithmetic *)
Definition average (loss : head * columns -> R) (l : list (head * columns)) : R :=
  (fold_left (fun t x => t + loss x) l 0 / INR (List.length l))%R.

(** supervised_learning.py:62-88 *)
Definition batch_size_of (name : string) : option Z :=
  (if String.eqb name "transformer" then Some 5
   else if String.eqb name "transformer_conv" then Some 5
   else if String.eqb name "transformer_conv_large" then Some 2
   else if String.eqb name "transformer_conv_large_3" then Some 2
   else if String.eqb name "transformer_conv_ordered" then Some 4
   else if String.eqb name "transformer_conv_ordered_large_2" then Some 2
   else if String.eqb name "transformer_conv_ordered_large_3" then Some 2
   else if String.eqb name "transformer_conv_ordered_large_4" then Some 1
   else if String.eqb name "transformer_conv_ordered_large_5" then Some 1
   else None)%string.

(** ** AdamW *)
(** The update of one parameter by torch.optim.AdamW with its default settings, in real
    arithmetic: [lr] is the learning rate, [t] the number of this update, [g] the
    gradient, [m] and [v] the moments. *)
Definition adamw (lr : R) (t : nat) (g p m v : R) : R * R * R :=
  let b1 := (0.9)%R in let b2 := (0.999)%R in
  let p1 := (p * (1 - lr * 0.01))%R in
  let m' := (b1 * m + (1 - b1) * g)%R in
  let v' := (b2 * v + (1 - b2) * (g * g))%R in
  let denom := (sqrt v' / sqrt (1 - b2 ^ t) + 0.00000001)%R in
  ((p1 - lr / (1 - b1 ^ t) * (m' / denom))%R, m', v').
