(** Model of the checkpoint handling of MahjongAI/supervised_learning.py:
    find_latest_checkpoint (28-53) and the outer loop of train (56-185). *)
From Coq Require Import ZArith List Bool String Ascii Arith.
From Verif Require Import Base.
Import ListNotations.
Open Scope Z_scope.

(** ** Strings *)

(** [s.startswith(p)], giving the rest *)
Fixpoint strip_prefix (p s : string) : option string :=
  match p, s with
  | EmptyString, _ => Some s
  | String a p', String b s' => if Ascii.eqb a b then strip_prefix p' s' else None
  | String _ _, EmptyString => None
  end.

(** [s.endswith(suf)] *)
Fixpoint ends_with (suf s : string) : bool :=
  String.eqb suf s || match s with EmptyString => false | String _ r => ends_with suf r end.

(** [os.path.join(a, b)] on POSIX, for non-empty [a] *)
Definition path_join (a b : string) : string :=
  match b with
  | String c _ =>
      if Ascii.eqb c "/"%char then b
      else if ends_with "/" a then (a ++ b)%string else (a ++ "/" ++ b)%string
  | EmptyString => if ends_with "/" a then a else (a ++ "/")%string
  end.

(** [f"{n}"] for a non-negative integer; [S n] digits are always enough *)
Fixpoint dec_aux (fuel n : nat) (acc : string) : string :=
  match fuel with
  | O => acc
  | S f =>
      let acc' := String (ascii_of_nat (48 + n mod 10)) acc in
      if Nat.eqb (n / 10) 0 then acc' else dec_aux f (n / 10) acc'
  end.
Definition dec (n : nat) : string := dec_aux (S n) n EmptyString.

(** ** find_latest_checkpoint *)

(** supervised_learning.py:34 and 40: the literal part before the number.
    Simplification: the model name is taken literally (no glob metacharacters in it,
    true of every name train accepts). *)
Definition ckpt_prefix (name : string) : string := ("model_" ++ name ++ "_checkpoint_iter_")%string.

(** supervised_learning.py:34-35: [glob] of "model_{name}_checkpoint_iter_*.pt" *)
Definition glob_match (name f : string) : bool :=
  match strip_prefix (ckpt_prefix name) f with
  | Some rest => ends_with ".pt" rest
  | None => false
  end.

(** The maximal run of digits at the front ([\d+] is greedy, and "." is not a
    digit, so no backtracking can succeed). *)
Fixpoint take_digits (s : string) : string * string :=
  match s with
  | EmptyString => (EmptyString, EmptyString)
  | String c r =>
      match digit_of c with
      | Some _ => let (d, q) := take_digits r in (String c d, q)
      | None => (EmptyString, s)
      end
  end.

(** supervised_learning.py:40: the regex anchored at one position *)
Definition regex_at (name s : string) : option Z :=
  match strip_prefix (ckpt_prefix name) s with
  | Some r =>
      let (ds, q) := take_digits r in
      match ds, strip_prefix ".pt" q with
      | EmptyString, _ => None
      | _, Some _ => digits_acc 0 ds
      | _, None => None
      end
  | None => None
  end.

(** supervised_learning.py:43: [re.search]: the leftmost position that matches *)
Fixpoint regex_search (name s : string) : option Z :=
  match regex_at name s with
  | Some z => Some z
  | None => match s with EmptyString => None | String _ r => regex_search name r end
  end.

(** supervised_learning.py:42-48: one round of the loop *)
Definition latest_step (name : string) (best : Z * option string) (file : string) : Z * option string :=
  match regex_search name file with
  | Some z => if fst best <? z then (z, Some file) else best
  | None => best
  end.

(** supervised_learning.py:28-53; [files] are the names in the directory, in the
    order [glob] lists them. *)
Definition find_latest (name dir : string) (files : list string) : Z * option string :=
  match fold_left (latest_step name) (map (path_join dir) (filter (glob_match name) files)) (-1, None) with
  | (z, Some f) => (z, Some f)
  | (_, None) => (0, None)
  end.

(** ** train *)

(** supervised_learning.py:58 *)
Definition save_dir : string := "saved_models".
(** supervised_learning.py:176-178 *)
Definition ckpt (name : string) (i : nat) : string :=
  ("model_" ++ name ++ "_checkpoint_iter_" ++ dec i ++ ".pt")%string.

(** supervised_learning.py:62-91 *)
Definition model_names : list string :=
  ["transformer"; "transformer_conv"; "transformer_conv_large"; "transformer_conv_large_3";
   "transformer_conv_ordered"; "transformer_conv_ordered_large_2"; "transformer_conv_ordered_large_3";
   "transformer_conv_ordered_large_4"; "transformer_conv_ordered_large_5"]%string.

Section Train.
  Context {W O : Type}.
  (** What a file holds: the complete parameters, or the beginning of a file whose
      writing was interrupted (torch.save writes in place). *)
  Inductive content := Full (w : W) | Torn.
  Definition disk := list (string * content).

  Fixpoint disk_write (d : disk) (p : string) (c : content) : disk :=
    match d with
    | [] => [(p, c)]
    | (q, x) :: r => if String.eqb p q then (p, c) :: r else (q, x) :: disk_write r p c
    end.
  Fixpoint disk_read (d : disk) (p : string) : option content :=
    match d with
    | [] => None
    | (q, x) :: r => if String.eqb p q then Some x else disk_read r p
    end.

  (** One pass over the training directory number [iter % 8] (supervised_learning.py
      142-171), as an arbitrary function of the parameters and of the optimizer and
      scheduler state.  [fresh] is the state of a new optimizer and scheduler
      (94-118), [ls] the order in which glob lists files. *)
  Variable epoch : nat -> W * O -> W * O.
  Variable fresh : O.
  Variable ls : list string -> list string.
  Variable name : string.

  (** supervised_learning.py:123-136: torch.load raises on an incomplete file.
      [init] is the randomly initialised model of this run. *)
  Definition startup (init : W) (d : disk) : res (nat * W) :=
    match find_latest name save_dir (ls (map fst d)) with
    | (_, None) => Ok (0%nat, init)
    | (k, Some p) =>
        match strip_prefix (save_dir ++ "/") p with
        | Some f => match disk_read d f with
                    | Some (Full w) => Ok (S (Z.to_nat k), w)
                    | _ => Err RuntimeError
                    end
        | None => Err RuntimeError
        end
    end.

  (** supervised_learning.py:144-183: the directory after every step that changes it:
      the file is created or truncated, then complete. *)
  Fixpoint iterations (m i : nat) (s : W * O) (d : disk) : list disk :=
    match m with
    | Datatypes.O => []
    | S m' =>
        let s' := epoch (i mod 8) s in
        let d' := disk_write d (ckpt name i) (Full (fst s')) in
        disk_write d (ckpt name i) Torn :: d' :: iterations m' (S i) s' d'
    end.

  (** supervised_learning.py:56-185: every directory state of a run of [m] iterations *)
  Definition train (m : nat) (init : W) (d : disk) : res (list disk) :=
    '(i, w) <- startup init d ;; Ok (d :: iterations m i (w, fresh) d).
End Train.
Arguments content : clear implicits.
Arguments disk : clear implicits.
