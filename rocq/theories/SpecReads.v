(** What a conversion may read of a log, for the claim that nothing else matters (C110) and for
    the order of events (C20). *)
From Coq Require Import ZArith List Bool String.
From Verif Require Import Base Process.
Import ListNotations.
Open Scope Z_scope.

(** The elements of a document, each before its children. *)
Inductive listed : elem -> list event -> Prop :=
| Listed : forall tag attr children lists, Forall2 listed children lists ->
    listed (Elem tag attr children) (MkEvent tag attr :: List.concat lists).

(** Elements of the header; everything else is an event of a round (or the end of the game). *)
Definition in_header (e : event) : bool :=
  existsb (String.eqb (e_tag e)) ["mjloggm"; "SHUFFLE"; "GO"; "UN"; "TAIKYOKU"]%string.

(** The attributes that mean something, by tag. *)
Definition meaning (tag : string) : list string :=
  (if String.eqb tag "INIT" then ["seed"; "ten"; "oya"; "hai0"; "hai1"; "hai2"; "hai3"]
  else if String.eqb tag "DORA" then ["hai"]
  else if String.eqb tag "REACH" then ["who"; "step"]
  else if String.eqb tag "N" then ["who"; "m"]
  else if String.eqb tag "AGARI" || String.eqb tag "RYUUKYOKU" then ["sc"]
  else [])%string.

(** Two events that mean the same: the same tag and the same values of these attributes. *)
Definition same_meaning (e e' : event) : Prop :=
  e_tag e = e_tag e' /\ forall k, In k (meaning (e_tag e)) -> dict_get (e_attr e) k = dict_get (e_attr e') k.

(** The rules of the game: the lowest five bits of the type in the only GO element below the
    root, if there is exactly one and its type is a number. *)
Definition rules (root : elem) : option Z :=
  match root with
  | Elem _ _ children =>
      match filter (fun c => match c with Elem t _ _ => String.eqb t "GO" end) children with
      | [Elem _ attr _] =>
          match dict_get attr "type" with
          | Ok t => match py_int t with Ok z => Some (z mod 32) | Err _ => None end
          | Err _ => None
          end
      | _ => None
      end
  end.
