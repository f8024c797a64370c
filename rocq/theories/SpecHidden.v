(** What a player sees of a round, for the claim that samples hide the other hands (C109). *)
From Coq Require Import ZArith List Bool String.
From Verif Require Import Base Naki Decision Process SpecRound SpecTensor.
Import ListNotations.
Open Scope Z_scope.

(** What one player sees of one play: everything, except for the tile when somebody else
    draws.  Everybody sees whether a discarded tile is the one just drawn or claimed. *)
Inductive sight : Type :=
| SeenDraw (who : Z) (tile : option Z)
| SeenDiscard (who tile : Z) (tsumogiri : bool)
| SeenCall (who code : Z)
| SeenReach1 (who : Z)
| SeenReach2 (who : Z)
| SeenDora (tile : Z).

(** [last] is the tile drawn or claimed last by the player to discard. *)
Fixpoint sights (p : Z) (last : option Z) (pls : list play) : list sight :=
  match pls with
  | [] => []
  | PlDraw w t :: r => SeenDraw w (if w =? p then Some t else None) :: sights p (Some t) r
  | PlDiscard w t :: r => SeenDiscard w t (match last with Some a => t =? a | None => false end) :: sights p None r
  | PlCall w c :: r => SeenCall w c :: sights p (if is_minkan c || is_ankan c || is_kakan c then None else hd_error (claimed_by c)) r
  | PlReach1 w :: r => SeenReach1 w :: sights p last r
  | PlReach2 w :: r => SeenReach2 w :: sights p last r
  | PlDora t :: r => SeenDora t :: sights p last r
  end.

(** Two deals that look the same to player [p]: scores, dealer, seed and the own tiles. *)
Definition same_deal (p : Z) (e e' : event) : Prop :=
  Forall (fun k => dict_get (e_attr e) k = dict_get (e_attr e') k) ["ten"; "oya"; "seed"; hai_key (Z.to_nat p)]%string.

(** Two rounds that look the same to player [p] up to the result. *)
Definition looks_same (p : Z) (evs evs' : list event) (pls pls' : list play) : Prop :=
  exists e r e' r', evs = e :: r /\ evs' = e' :: r' /\ same_deal p e e' /\
    plays_of_round evs pls /\ plays_of_round evs' pls' /\ sights p None pls = sights p None pls'.

