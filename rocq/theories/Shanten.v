(** Model of MahjongAI/utils/shanten.py (class ShantenSolver).

    The numpy vector of tile counts is a [list Z] of length 37 (34 tile types and
    three red-five markers); the floats that occur are integers.  The object is
    the record [sv]; methods are functions from states to states.  The recursion
    of [solve_normal] has no syntactic bound, so it carries a fuel argument and
    returns [None] when the fuel runs out; [solve] supplies 140, which
    [C62_terminates] shows to be enough for every vector. *)
From Coq Require Import ZArith List Bool.
From Verif Require Import Base Constants.
Import ListNotations.
Open Scope Z_scope.

(** shanten.py:10-18: the attributes of the object ([n_melds] is only used to
    initialise [n_mentsu]). *)
Record sv := mkSv {
  sv_hand : list Z; sv_mentsu : Z; sv_taatsu : Z; sv_toitsu : Z;
  sv_kuttsuki : Z; sv_best : Z; sv_tune : Z }.

(** [sum(v >= x)] and [sum(v == x)] on a boolean numpy array *)
Definition sum_ge (v : list Z) (x : Z) : Z := vsum (map (fun y => b2z (x <=? y)) v).
Definition sum_eq (v : list Z) (x : Z) : Z := vsum (map (fun y => b2z (y =? x)) v).

(** shanten.py:10-18 [_init] ([//] is floor division) *)
Definition sv_init (h : list Z) : sv :=
  mkSv h ((14 - vsum h) / 3 + sum_ge (skipn 27 h) 3) 0 (sum_eq (skipn 27 h) 2) 0 14 0.

(** shanten.py:20-22, 24-26; [hand_tensor[idx : idx + 3] -= 1] *)
Definition add_shuntsu (idx : nat) (s : sv) : sv :=
  mkSv (vadds (sv_hand s) [idx; idx + 1; idx + 2]%nat (-1)) (sv_mentsu s + 1) (sv_taatsu s)
       (sv_toitsu s) (sv_kuttsuki s) (sv_best s) (sv_tune s).
Definition remove_shuntsu (idx : nat) (s : sv) : sv :=
  mkSv (vadds (sv_hand s) [idx; idx + 1; idx + 2]%nat 1) (sv_mentsu s - 1) (sv_taatsu s)
       (sv_toitsu s) (sv_kuttsuki s) (sv_best s) (sv_tune s).

(** shanten.py:28-30, 32-34 *)
Definition add_koutsu (idx : nat) (s : sv) : sv :=
  mkSv (vadd (sv_hand s) idx (-3)) (sv_mentsu s + 1) (sv_taatsu s)
       (sv_toitsu s) (sv_kuttsuki s) (sv_best s) (sv_tune s).
Definition remove_koutsu (idx : nat) (s : sv) : sv :=
  mkSv (vadd (sv_hand s) idx 3) (sv_mentsu s - 1) (sv_taatsu s)
       (sv_toitsu s) (sv_kuttsuki s) (sv_best s) (sv_tune s).

(** shanten.py:36-38, 40-42 *)
Definition add_toitsu (idx : nat) (s : sv) : sv :=
  mkSv (vadd (sv_hand s) idx (-2)) (sv_mentsu s) (sv_taatsu s)
       (sv_toitsu s + 1) (sv_kuttsuki s) (sv_best s) (sv_tune s).
Definition remove_toitsu (idx : nat) (s : sv) : sv :=
  mkSv (vadd (sv_hand s) idx 2) (sv_mentsu s) (sv_taatsu s)
       (sv_toitsu s - 1) (sv_kuttsuki s) (sv_best s) (sv_tune s).

(** shanten.py:44-47, 49-52 *)
Definition add_taatsu (idx which : nat) (s : sv) : sv :=
  mkSv (vadd (vadds (sv_hand s) [idx; idx + 1; idx + 2]%nat (-1)) (idx + which) 1)
       (sv_mentsu s) (sv_taatsu s + 1)
       (sv_toitsu s) (sv_kuttsuki s) (sv_best s) (sv_tune s).
Definition remove_taatsu (idx which : nat) (s : sv) : sv :=
  mkSv (vadd (vadds (sv_hand s) [idx; idx + 1; idx + 2]%nat 1) (idx + which) (-1))
       (sv_mentsu s) (sv_taatsu s - 1)
       (sv_toitsu s) (sv_kuttsuki s) (sv_best s) (sv_tune s).

(** shanten.py:54-58, 60-64 *)
Definition add_kuttsuki (idx : nat) (tune : bool) (s : sv) : sv :=
  mkSv (vadd (sv_hand s) idx (-1)) (sv_mentsu s) (sv_taatsu s)
       (sv_toitsu s) (sv_kuttsuki s + 1) (sv_best s) (if tune then sv_tune s + 1 else sv_tune s).
Definition remove_kuttsuki (idx : nat) (tune : bool) (s : sv) : sv :=
  mkSv (vadd (sv_hand s) idx 1) (sv_mentsu s) (sv_taatsu s)
       (sv_toitsu s) (sv_kuttsuki s - 1) (sv_best s) (if tune then sv_tune s - 1 else sv_tune s).

(** Truth value of a number *)
Definition truthy (x : Z) : bool := negb (x =? 0).

(** shanten.py:67-70: the loop that skips types without tiles; [n] is the number
    of remaining types, [27 - idx]. *)
Fixpoint skip (n : nat) (h : list Z) (idx : nat) : nat :=
  match n with
  | O => idx
  | S n' => if truthy (vget h idx) then idx else skip n' h (S idx)
  end.

(** shanten.py:72-82: a finished decomposition *)
Definition sv_leaf (s : sv) : sv :=
  let shanten := Z.min (sv_best s) (8 - sv_mentsu s * 2 - sv_taatsu s - sv_toitsu s) in
  let potential := Z.max 0 (sv_toitsu s - 1) + sv_taatsu s in
  let shanten := if 4 <? potential + sv_mentsu s then shanten + (potential + sv_mentsu s - 4) else shanten in
  let shanten := if truthy (sv_tune s) && negb (truthy (sv_toitsu s)) then shanten + 1 else shanten in
  mkSv (sv_hand s) (sv_mentsu s) (sv_taatsu s) (sv_toitsu s) (sv_kuttsuki s)
       (Z.min (sv_best s) shanten) (sv_tune s).

Definition obind {A B} (m : option A) (k : A -> option B) : option B :=
  match m with Some a => k a | None => None end.
Notation "x <-- m ;; k" := (obind m (fun x => k)) (at level 61, m at next level, right associativity).

(** shanten.py:86-103: the local function [process_shuntsu]; [rec] is
    [self.solve_normal]. *)
Definition process_shuntsu (rec : nat -> sv -> option sv) (idx : nat) (tune : bool) (s : sv) : option sv :=
  let num := Nat.modulo idx 9 in
  s <-- (if Nat.ltb num 7 && truthy (vget (sv_hand s) (idx + 2)) then
           s <-- (if truthy (vget (sv_hand s) (idx + 1)) then
                    s' <-- rec idx (add_shuntsu idx s) ;; Some (remove_shuntsu idx s')
                  else Some s) ;;
           s' <-- rec idx (add_taatsu idx 1 s) ;; Some (remove_taatsu idx 1 s')
         else Some s) ;;
  s <-- (if Nat.ltb num 8 && truthy (vget (sv_hand s) (idx + 1)) then
           s' <-- rec idx (add_taatsu idx 2 s) ;; Some (remove_taatsu idx 2 s')
         else Some s) ;;
  s' <-- rec idx (add_kuttsuki idx tune s) ;; Some (remove_kuttsuki idx tune s').

(** shanten.py:66-132 *)
Fixpoint solve_normal (fuel : nat) (idx : nat) (s : sv) : option sv :=
  match fuel with
  | O => None
  | S fuel' =>
      let rec := solve_normal fuel' in
      let idx := skip (27 - idx) (sv_hand s) idx in
      if Nat.eqb idx 27 then Some (sv_leaf s)
      else
        let n := vget (sv_hand s) idx in
        if n =? 4 then
          s <-- process_shuntsu rec idx true (add_koutsu idx s) ;;
          s <-- rec (S idx) s ;;
          let s := remove_koutsu idx s in
          s <-- process_shuntsu rec idx false (add_toitsu idx s) ;;
          Some (remove_toitsu idx s)
        else if n =? 3 then
          s <-- rec (S idx) (add_koutsu idx s) ;;
          let s := remove_koutsu idx s in
          s <-- rec idx (add_toitsu idx s) ;;
          Some (remove_toitsu idx s)
        else if n =? 2 then
          s <-- rec (S idx) (add_toitsu idx s) ;;
          process_shuntsu rec idx false (remove_toitsu idx s)
        else if n =? 1 then process_shuntsu rec idx false s
        else Some s
  end.

Definition set_best (s : sv) (b : Z) : sv :=
  mkSv (sv_hand s) (sv_mentsu s) (sv_taatsu s) (sv_toitsu s) (sv_kuttsuki s) b (sv_tune s).

(** shanten.py:134-135 *)
Definition solve_chitoitsu (s : sv) : sv :=
  set_best s (Z.min (sv_best s) (6 - sum_ge (sv_hand s) 2)).

(** Python [max] of a non-empty sequence *)
Definition py_max (v : list Z) : Z :=
  match v with [] => 0 | x :: r => fold_left Z.max r x end.

(** shanten.py:137-141 *)
Definition yaochu_arr (h : list Z) : list Z :=
  map (fun p => fst p * snd p) (combine h YAOCHU_TENSOR).
Definition solve_kokushi (s : sv) : sv :=
  let y := yaochu_arr (sv_hand s) in
  set_best s (Z.min (sv_best s) (13 - sum_ge y 1 - (py_max y - 1))).

(** shanten.py:143-148: the number returned and the object afterwards *)
Definition solve (s : sv) : option (Z * sv) :=
  s <-- solve_normal 140 0 s ;;
  let s := solve_kokushi (solve_chitoitsu s) in
  Some (sv_best s, s).

(** shanten.py:194-196: the way the class is used *)
Definition shanten (h : list Z) : option (Z * sv) := solve (sv_init h).
