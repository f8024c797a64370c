(** Common vocabulary of the model: Python exceptions as values, indexing,
    small vectors, int() and str.split(",").  Nothing here models a function of
    /repo; it models the Python / numpy primitives those functions use. *)
From Coq Require Import ZArith List Bool String Ascii Lia.
Import ListNotations.
Open Scope Z_scope.

(** The exceptions raised by the code of /repo or by the primitives it uses. *)
Inductive exn : Type :=
| AssertionError | ValueError | IndexError | KeyError | TypeError
| AttributeError | UnboundLocalError | ZeroDivisionError
| InvalidGameException | SystemExit | StopIteration | RuntimeError
| NotImplementedError.

(** Result of running Python code: a value or an exception. *)
Inductive res (A : Type) : Type :=
| Ok (a : A)
| Err (e : exn).
Arguments Ok {A} a.
Arguments Err {A} e.

Definition bind {A B} (m : res A) (k : A -> res B) : res B :=
  match m with Ok a => k a | Err e => Err e end.

Notation "x <- m ;; k" := (bind m (fun x => k))
  (at level 61, m at next level, right associativity).
Notation "' p <- m ;; k" := (bind m (fun x => match x with p => k end))
  (at level 61, p pattern, m at next level, right associativity).

(** [assert b] *)
Definition passert (b : bool) : res unit :=
  if b then Ok tt else Err AssertionError.

Fixpoint mapM {A B} (f : A -> res B) (l : list A) : res (list B) :=
  match l with
  | [] => Ok []
  | x :: r => y <- f x ;; ys <- mapM f r ;; Ok (y :: ys)
  end.

Fixpoint foldM {A S} (f : S -> A -> res S) (s : S) (l : list A) : res S :=
  match l with
  | [] => Ok s
  | x :: r => s' <- f s x ;; foldM f s' r
  end.

(** [seq[i]] for a sequence of length [n]: Python and numpy both accept
    [-n <= i < n] and wrap negative indices, and raise IndexError otherwise. *)
Definition py_index (n : nat) (i : Z) : res nat :=
  if (0 <=? i) && (i <? Z.of_nat n) then Ok (Z.to_nat i)
  else if (- Z.of_nat n <=? i) && (i <? 0) then Ok (Z.to_nat (i + Z.of_nat n))
  else Err IndexError.

(** Vectors are lists; out-of-range reads give 0 and out-of-range writes do
    nothing.  Every use in the model goes through an index that [py_index]
    (or a static range) has already validated. *)
Definition vget (v : list Z) (i : nat) : Z := nth i v 0.

Fixpoint upd {A} (l : list A) (i : nat) (f : A -> A) : list A :=
  match l, i with
  | [], _ => []
  | x :: r, O => f x :: r
  | x :: r, S k => x :: upd r k f
  end.

Definition vset (v : list Z) (i : nat) (x : Z) : list Z := upd v i (fun _ => x).
Definition vadd (v : list Z) (i : nat) (d : Z) : list Z := upd v i (fun x => x + d).
(** [v[[i, j, ...]] += d] (numpy fancy index with distinct indices). *)
Definition vadds (v : list Z) (is_ : list nat) (d : Z) : list Z :=
  fold_left (fun v i => vadd v i d) is_ v.
Definition vsets (v : list Z) (is_ : list nat) (x : Z) : list Z :=
  fold_left (fun v i => vset v i x) is_ v.

Definition vsum (v : list Z) : Z := fold_right Z.add 0 v.

(** Rows of a matrix (or elements of a list of arrays). *)
Definition row {A} (m : list (list A)) (i : nat) : list A := nth i m [].

Definition b2z (b : bool) : Z := if b then 1 else 0.

(** [range(n)] as naturals / integers *)
Definition zrange (n : nat) : list Z := map Z.of_nat (seq 0 n).

(** [list.pop(i)] for a static non-negative index: the popped element and the rest. *)
Fixpoint pop {A} (l : list A) (i : nat) : option (A * list A) :=
  match l, i with
  | [], _ => None
  | x :: r, O => Some (x, r)
  | x :: r, S k => match pop r k with Some (y, r') => Some (y, x :: r') | None => None end
  end.

(** ** Strings *)

Definition digit_of (c : ascii) : option Z :=
  let n := Z.of_nat (nat_of_ascii c) in
  if (48 <=? n) && (n <=? 57) then Some (n - 48) else None.

Fixpoint digits_acc (acc : Z) (s : string) : option Z :=
  match s with
  | EmptyString => Some acc
  | String c r => match digit_of c with
                  | Some d => digits_acc (10 * acc + d) r
                  | None => None
                  end
  end.

(** [int(s)] on ASCII text: optional sign, one or more digits.  Simplification:
    surrounding blanks, digit-group underscores and non-ASCII digits, which
    Python also accepts, are rejected here; they do not occur in tenhou logs. *)
Definition py_int (s : string) : res Z :=
  let body (s : string) : res Z :=
    match s with
    | EmptyString => Err ValueError
    | _ => match digits_acc 0 s with Some z => Ok z | None => Err ValueError end
    end in
  match s with
  | String c r =>
      if Ascii.eqb c "-"%char then (z <- body r ;; Ok (- z))
      else if Ascii.eqb c "+"%char then body r
      else body s
  | EmptyString => Err ValueError
  end.

(** [s.split(",")] *)
Fixpoint split_on (sep : ascii) (s : string) : list string :=
  match s with
  | EmptyString => [EmptyString]
  | String c r =>
      match split_on sep r with
      | [] => [String c EmptyString] (* unreachable *)
      | w :: ws => if Ascii.eqb c sep then EmptyString :: w :: ws
                   else String c w :: ws
      end
  end.
Definition split_comma := split_on ","%char.

(** Attribute dictionaries: [d[key]] raises KeyError. *)
Definition attrs := list (string * string).
Fixpoint dict_get (d : attrs) (k : string) : res string :=
  match d with
  | [] => Err KeyError
  | (k', v) :: r => if String.eqb k k' then Ok v else dict_get r k
  end.
