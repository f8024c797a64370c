(** Specification vocabulary for the offers recorded with draws and discards. *)
From Coq Require Import ZArith List Bool Permutation.
From Verif Require Import Base Naki Decision Process SpecMeld SpecRound.
Import ListNotations.
Open Scope Z_scope.

(** The tiles [hl] are what player [p] holds concealed after the plays [pls]: dealt or
    drawn, and neither discarded nor shown. *)
Definition concealed (e0 : event) (pls : list play) (p : Z) (hl : list Z) : Prop :=
  Permutation (dealt e0 (Z.to_nat p) ++ drawn p pls) (discarded p pls ++ shown p pls ++ hl).

(** How many tiles of type [t] (0..33) are in a list, red fives included *)
Definition of_type (t : Z) (l : list Z) : Z := Z.of_nat (length (filter (fun x => x / 4 =? t) l)).
(** The hand as the shanten library takes it: the number of tiles of every type *)
Definition by_type (l : list Z) : list Z := map (fun t => of_type (Z.of_nat t) l) (seq 0 34).

(** With variables [s], the half-turn recorded last is the draw of [w], and the riichi
    candidates in it are [re]. *)
Definition riichi_offers (s : rstate) (w : Z) (re : list decision) : Prop :=
  exists so ag calls i r, s_half s = DuringTurn w so [ag; re; calls] i :: r.

(** The half-turn recorded last is the one after a discard of [w], and the calls offered
    to player [q] in it are [calls]. *)
Definition call_offers (s : rstate) (w q : Z) (calls : list decision) : Prop :=
  exists so ds wins i r, s_half s = PostTurn w so ds i :: r /\ nth (Z.to_nat q) ds [] = [wins; []; calls].
(** Some call of kind [k] is among them. *)
Definition some_call (k : kind) (calls : list decision) : Prop :=
  exists p nk e, In (NakiDecision p nk e) calls /\ spec_kind (nk_code nk) = Some k.

(** The red five of the suit of tile type [t] is in a list. *)
Definition has_red_of (t : Z) (l : list Z) : Prop := exists x, In x l /\ red_fiveb x = true /\ x / 36 = t / 9.

(** A concealed hand as a vector of 37 counts: the tile types, then the three red fives. *)
Definition counts (l : list Z) : list Z := map (fun k => num k l) (seq 0 37).
