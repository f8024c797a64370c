(** Specification vocabulary for call candidates (C12-C18). *)
From Coq Require Import ZArith List Bool.
From Verif Require Import Base Naki Decision SpecMeld.
Import ListNotations.
Open Scope Z_scope.

(** The candidates returned for player [p], and the 37-wide hand vector of [p]. *)
Definition offered (ds : list (list decision)) (p : Z) : list decision := nth (Z.to_nat p) ds [].
Definition hand_of (hands : list (list Z)) (p : Z) : list Z := nth (Z.to_nat p) hands [].

(** For every tile type the hand has at least as many tiles as listed. *)
Definition holds_all (h : list Z) (types : list Z) : Prop :=
  forall x, Z.of_nat (count_occ Z.eq_dec types x) <= hget h x.

(** Some candidate of kind [k] is offered to [p]. *)
Definition offers_kind (k : kind) (ds : list (list decision)) (p : Z) : Prop :=
  exists nk, In (NakiDecision p nk false) (offered ds p) /\ spec_kind (nk_code nk) = Some k.

(** Player [p] holds the red five of the suit of tile type [t]
    (vector entries 34, 35, 36). *)
Definition holds_red (h : list Z) (t : Z) : Prop := 0 < hget h (34 + t / 9).

(** The chi with these tiles: the run of suit [s] from number [n] on, of which the tile in
    place [w] is claimed; [red]: the red five is one of the three tiles. *)
Definition chi_of (c s n w : Z) (red : bool) : Prop :=
  spec_kind c = Some Chi /\ 0 <= s < 3 /\ 0 <= n < 7 /\ 0 <= w < 3 /\
  exists ex a, get_exposed c = Ok (ex, Some a) /\ insert_at (Z.to_nat w) (tile_type a) (map tile_type ex) = [9 * s + n; 9 * s + n + 1; 9 * s + n + 2] /\
    has_red_five (a :: ex) = red.

(** The player holds the two tiles that make a run with [t] in place [w]. *)
Definition run_held (h : list Z) (t w : Z) : Prop :=
  0 <= w < 3 /\ 0 <= t mod 9 - w < 7 /\ forall i, 0 <= i < 3 -> i <> w -> 0 < hget h (t - w + i).
(** One of these two tiles is a five. *)
Definition five_beside (t w : Z) : Prop := exists i, 0 <= i < 3 /\ i <> w /\ t mod 9 - w + i = 4.

(** The chi the program offers for the discarded tile [t]: number of the lowest tile, claimed
    place and use of the red five.  With a five from the hand and the red five held, a run
    with [t] in the middle is offered with the wrong place, and the chi with a black five
    needs two copies of [t] (not of the five) in the hand. *)
Inductive chi_rule (h : list Z) (t : Z) (is_red : bool) : Z -> Z -> bool -> Prop :=
| cr_no_five w red : run_held h t w -> ~ five_beside t w -> (red = true <-> is_red = true /\ t mod 9 = 4) ->
    chi_rule h t is_red (t mod 9 - w) w red
| cr_black w : run_held h t w -> five_beside t w -> ~ holds_red h t -> chi_rule h t is_red (t mod 9 - w) w false
| cr_with_red w red : run_held h t w -> five_beside t w -> holds_red h t -> (red = true \/ 2 <= hget h t) -> w <> 1 ->
    chi_rule h t is_red (t mod 9 - w) w red
| cr_middle red w' : run_held h t 1 -> five_beside t 1 -> holds_red h t -> (red = true \/ 2 <= hget h t) ->
    w' = (if t mod 9 =? 3 then 0 else 2) -> chi_rule h t is_red (t mod 9 - 1) w' red.
