(** Vocabulary for C114: the copies of a tile. *)
From Coq Require Import ZArith List Bool String Permutation.
From Verif Require Import Base Naki Decision Agari Process SpecMeld SpecRound.
Import ListNotations.
Open Scope Z_scope.

(** [f] gives the tiles other numbers: every tile stays of its type and the red fives stay. *)
Record renaming (f : Z -> Z) : Prop := {
  rn_valid : forall x, valid_id x -> valid_id (f x);
  rn_type : forall x, valid_id x -> f x / 4 = x / 4;
  rn_red : forall x, red_five x -> f x = x;
  rn_inj : forall x y, valid_id x -> valid_id y -> f x = f y -> x = y }.

(** A play with the tile renamed.  The tiles of calls keep their numbers; so does, after a pon
    of tiles of type [k], the tile with the number [k]. *)
Definition renamed (f : Z -> Z) (a b : play) : Prop :=
  match a with
  | PlDraw w x => valid_id x /\ b = PlDraw w (f x)
  | PlDiscard w x => valid_id x /\ b = PlDiscard w (f x)
  | PlDora x => valid_id x /\ b = PlDora (f x)
  | PlCall w c => in_range c /\ b = PlCall w c /\ Forall (fun x => f x = x) (shown_by c ++ claimed_by c) /\
      (spec_kind c = Some Pon -> Forall (fun x => f (x / 4) = x / 4) (shown_by c))
  | _ => b = a
  end.

(** The same without restriction: a call may be written with another code, as long as it is the
    same call of the renamed tiles. *)
Definition renamed_freely (f : Z -> Z) (a b : play) : Prop :=
  match a with
  | PlDraw w x => valid_id x /\ b = PlDraw w (f x)
  | PlDiscard w x => valid_id x /\ b = PlDiscard w (f x)
  | PlDora x => valid_id x /\ b = PlDora (f x)
  | PlCall w c => exists c', b = PlCall w c' /\ in_range c /\ in_range c' /\ spec_kind c' = spec_kind c /\ from_who c' = from_who c /\
      Permutation (shown_by c') (map f (shown_by c)) /\ claimed_by c' = map f (claimed_by c)
  | _ => b = a
  end.

(** The same deal with the tiles renamed. *)
Record same_deal_but_copies (f : Z -> Z) (e e' : event) : Prop := {
  dc_scores : dict_get (e_attr e') "ten" = dict_get (e_attr e) "ten";
  dc_dealer : dict_get (e_attr e') "oya" = dict_get (e_attr e) "oya";
  dc_seed : firstn 5 (seed_of e') = firstn 5 (seed_of e);
  dc_indicator : valid_id (nth 5 (seed_of e) 0) /\ nth 5 (seed_of e') 0 = f (nth 5 (seed_of e) 0);
  dc_hands : forall p, (p < 4)%nat -> Permutation (dealt e' p) (map f (dealt e p)) }.

(** The scoring library gives the same answer whichever copies are the last tile and the indicators. *)
Definition blind_to_copies (f : Z -> Z) (lib : query -> res bool) : Prop :=
  forall m p s h w ms ds b1 b2 b3 b4 b5 b6 b7 b8 b9 b10 b11 z1 z2 z3 z4, valid_id w -> Forall valid_id ds ->
  lib (MkQuery m p s h (f w) ms (map f ds) b1 b2 b3 b4 b5 b6 b7 b8 b9 b10 b11 z1 z2 z3 z4) =
  lib (MkQuery m p s h w ms ds b1 b2 b3 b4 b5 b6 b7 b8 b9 b10 b11 z1 z2 z3 z4).
