(** Specification vocabulary for the command line. *)
From Coq Require Import ZArith List Bool String Ascii.
From Verif Require Import Base SpecTrain.
Import ListNotations.
Open Scope Z_scope.

(** Only blanks: tab to carriage return, the four separators, space *)
Fixpoint blanks (s : string) : Prop :=
  match s with
  | EmptyString => True
  | String c r => let n := nat_of_ascii c in ((9 <= n <= 13)%nat \/ (28 <= n <= 32)%nat) /\ blanks r
  end.

(** [groups] separated by underscores *)
Fixpoint joined (groups : list string) : string :=
  match groups with
  | [] => EmptyString
  | [g] => g
  | g :: rest => (g ++ "_" ++ joined rest)%string
  end.

(** The text is the number [z]: blanks, a sign, groups of digits joined by underscores, blanks *)
Definition spells (s : string) (z : Z) : Prop :=
  exists b1 sign groups b2 a, s = (b1 ++ sign ++ joined groups ++ b2)%string /\ blanks b1 /\ blanks b2 /\
    groups <> [] /\ (forall g, In g groups -> exists v, numeral g v) /\
    numeral (String.concat "" groups) a /\
    ((sign = "" \/ sign = "+")%string /\ z = a \/ sign = "-"%string /\ z = - a).

(** The nine models *)
Definition offered : list string :=
  ["transformer"; "transformer_conv"; "transformer_conv_large"; "transformer_conv_large_3";
   "transformer_conv_ordered"; "transformer_conv_ordered_large_2"; "transformer_conv_ordered_large_3";
   "transformer_conv_ordered_large_4"; "transformer_conv_ordered_large_5"]%string.
