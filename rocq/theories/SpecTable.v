(** Specification vocabulary for the table situation shown by samples: dealer, honba,
    rounds left, scores, riichi and ippatsu, read from the log. *)
From Coq Require Import ZArith List Bool String.
From Verif Require Import Base GameInfo Process Tensor SpecMeld SpecTokens SpecRound.
Import ListNotations.
Open Scope Z_scope.

(** The seat of the dealer.  (Python accepts -4..3, counted from the end.) *)
Definition dealer (e0 : event) : Z := match attr_int e0 "oya" with Some z => z mod 4 | None => -1 end.
Definition round_number (e0 : event) : Z := nth 0 (seed_of e0) 0.
Definition honba_of (e0 : event) : Z := nth 1 (seed_of e0) 0.
(** East only (bit 3 of the game type clear) or east and south. *)
Definition game_length (go : Z) : Z := if field go 3 1 =? 1 then 8 else 4.

(** How many of the rounds [c], [c]+1, ..., [n]-1 seat [p] deals; seat [k mod 4] deals
    round [k]. *)
Definition deals_left (c n p : Z) : Z :=
  Z.of_nat (List.length (filter (fun i => (c + Z.of_nat i) mod 4 =? p) (seq 0 (Z.to_nat (n - c))))).

(** Player [p] has declared riichi, and nobody has drawn or called since. *)
Definition quiet (e : play) : Prop := match e with PlDraw _ _ | PlCall _ _ => False | _ => True end.
Definition riichi_by (p : Z) (e : play) : Prop := match e with PlReach1 w => w mod 4 = p | PlReach2 w => w = p | _ => False end.
Definition just_declared (p : Z) (pls : list play) : Prop :=
  exists h1 e h2, pls = h1 ++ e :: h2 /\ riichi_by p e /\ Forall quiet h2.
(** The last play is the first draw or call after [p]'s riichi, and not a draw by [p]. *)
Definition right_after_riichi (p : Z) (pls : list play) : Prop :=
  exists h e, pls = h ++ [e] /\ just_declared p h /\ match e with PlDraw w _ => w <> p | PlCall _ _ => True | _ => False end.

(** [p] has declared riichi, nobody has called since, and [p] has not discarded again:
    a win of [p] now would be ippatsu. *)
Definition ippatsu_chance (p : Z) (pls : list play) : Prop :=
  exists h1 h2, pls = h1 ++ PlReach2 p :: h2 /\ Forall (fun e => match e with PlCall _ _ => False | PlDiscard w _ => w <> p | _ => True end) h2.

(** The features show the table after the plays [pls]. *)
Definition shows_table (go : Z) (e0 : event) (pls : list play) (f : features) : Prop :=
  (* scores, dealer, deals left, riichi: one entry per seat *)
  nth 0 (f_x2 f) [] = map (fun p => vget (initial_scores e0) (Z.to_nat p) - 10 * sticks p pls) seats /\
  nth 1 (f_x2 f) [] = map (fun p => if p =? dealer e0 then 1 else 0) seats /\
  (round_number e0 <= game_length go -> nth 2 (f_x2 f) [] = map (deals_left (round_number e0) (game_length go)) seats) /\
  nth 4 (f_x2 f) [] = map (fun p => if 0 <? sticks p pls then 1 else 0) seats /\
  (* draws left (as counted by the code, see C28), sticks, honba, rounds left *)
  f_x3 f = [70 - draws pls - kans pls - new_doras pls; initial_sticks e0 + all_sticks pls; honba_of e0; game_length go - round_number e0].
