(** Model of the command line of MahjongAI/supervised_learning.py (222-248) and of the choice
    of the network in train (62-91). *)
From Coq Require Import ZArith List Bool String Ascii.
From Verif Require Import Base Train Tensor TrainLoop.
Import ListNotations.
Open Scope Z_scope.

(** ** int *)

(** The ASCII characters [str.strip] removes *)
Definition blank (c : ascii) : bool :=
  let n := nat_of_ascii c in
  (Nat.leb 9 n && Nat.leb n 13) || (Nat.leb 28 n && Nat.leb n 32).

Fixpoint lstrip (s : string) : string :=
  match s with
  | String c r => if blank c then lstrip r else s
  | EmptyString => EmptyString
  end.

(** Digits with single underscores between them; [after] tells whether the previous
    character was a digit. *)
Fixpoint grouped (after : bool) (acc : Z) (s : string) : option (Z * string) :=
  match s with
  | EmptyString => if after then Some (acc, EmptyString) else None
  | String c r =>
      match digit_of c with
      | Some d => grouped true (10 * acc + d) r
      | None => if Ascii.eqb c "_"%char then (if after then grouped false acc r else None)
                else if after then Some (acc, s) else None
      end
  end.

(** [int(s)] on ASCII text: blanks around it, a sign, digits in groups.  Not modelled:
    other decimal digits and blanks of Unicode, and the limit of 4300 digits of newer
    Python versions. *)
Definition read_int (s : string) : res Z :=
  let s := lstrip s in
  let '(neg, s) := match s with
                   | String c r => if Ascii.eqb c "-"%char then (true, r) else if Ascii.eqb c "+"%char then (false, r) else (false, s)
                   | EmptyString => (false, s)
                   end in
  match grouped false 0 s with
  | Some (z, r) => if String.eqb (lstrip r) EmptyString then Ok (if neg : bool then - z else z) else Err ValueError
  | None => Err ValueError
  end.

(** ** Command line *)

(** supervised_learning.py:224-246: [argv] is sys.argv.  An error here is raised before
    train is called: nothing but the log file (23-25) has been touched. *)
Definition launch (argv : list string) : res (string * Z) :=
  match argv with
  | [_; name; iters] =>
      _ <- passert (existsb (String.eqb name) model_names) ;;
      n <- read_int iters ;;
      Ok (name, n)
  | _ => Err ValueError
  end.

(** supervised_learning.py:62-91: the class of the network, its size argument if it has
    one, and the batch size *)
Definition network_of (name : string) : res (agent * option nat * Z) :=
  (if String.eqb name "transformer" then Ok (TF, None, 5)
   else if String.eqb name "transformer_conv" then Ok (CONV, None, 5)
   else if String.eqb name "transformer_conv_large" then Ok (LARGE, Some 2%nat, 2)
   else if String.eqb name "transformer_conv_large_3" then Ok (LARGE, Some 3%nat, 2)
   else if String.eqb name "transformer_conv_ordered" then Ok (ORDERED, Some 1%nat, 4)
   else if String.eqb name "transformer_conv_ordered_large_2" then Ok (ORDERED, Some 2%nat, 2)
   else if String.eqb name "transformer_conv_ordered_large_3" then Ok (ORDERED, Some 3%nat, 2)
   else if String.eqb name "transformer_conv_ordered_large_4" then Ok (ORDERED, Some 4%nat, 1)
   else if String.eqb name "transformer_conv_ordered_large_5" then Ok (ORDERED, Some 5%nat, 1)
   else Err NotImplementedError)%string.

Section Main.
  Context {W O : Type}.
  (** The training of one network with one batch size (Train.v); a network is created with
      the parameters [init]. *)
  Variable epoch : agent * option nat * Z -> nat -> W * O -> W * O.
  Variable init : agent * option nat * Z -> W.
  Variable fresh : O.
  Variable ls : list string -> list string.

  (** supervised_learning.py:222-248: every state of the checkpoint directory.
      [range(start, start + max_iters)] is empty for a negative number. *)
  Definition main (argv : list string) (d : disk W) : res (list (disk W)) :=
    '(name, n) <- launch argv ;;
    net <- network_of name ;;
    train (epoch net) fresh ls name (Z.to_nat n) (init net) d.
End Main.
