(** Specification vocabulary for rounds that follow the rules: where a round stands,
    which tiles a player holds, and which play may come next.  Nothing here refers to
    the variables of the event loop. *)
From Coq Require Import ZArith List Bool String.
From Verif Require Import Base Naki GameInfo Process SpecMeld SpecTokens SpecRound.
Import ListNotations.
Open Scope Z_scope.

(** Where a round stands between two plays. *)
Inductive standing :=
| Waiting                    (* for a draw: at the start and after a kan *)
| Drew (who : Z)             (* [who] has drawn and is to discard *)
| Called (who : Z)           (* [who] has called a chi or pon and is to discard *)
| Threw (who tile : Z).      (* [who] has discarded the tile *)
Definition after (st : standing) (a : play) : standing :=
  match a with
  | PlDraw w _ => Drew w
  | PlDiscard w t => Threw w t
  | PlCall w c => match spec_kind c with Some Chi | Some Pon => Called w | _ => Waiting end
  | PlReach1 _ | PlReach2 _ | PlDora _ => st
  end.
Definition stands (pls : list play) : standing := fold_left after pls Waiting.

(** Tile [t] is in the concealed hand of [p]: dealt to or drawn by [p], and neither
    discarded nor exposed since. *)
Definition in_hand (e0 : event) (pls : list play) (p t : Z) : Prop :=
  In t (dealt e0 (Z.to_nat p) ++ drawn p pls) /\ ~ In t (discarded p pls ++ shown p pls).
(** Tile [t] is still face down in the wall. *)
Definition in_wall (e0 : event) (pls : list play) (t : Z) : Prop :=
  valid_id t /\ ~ In t (all_dealt e0 ++ [first_indicator e0] ++ all_drawn pls ++ indicators pls).

(** The play [a] may follow the plays [pls]. *)
Definition allowed (e0 : event) (pls : list play) (a : play) : Prop :=
  match a with
  | PlDraw w t => 0 <= w < 4 /\ in_wall e0 pls t /\ (stands pls = Waiting \/ exists d x, stands pls = Threw d x)
  | PlDiscard w t => 0 <= w < 4 /\ in_hand e0 pls w t /\ (stands pls = Drew w \/ stands pls = Called w)
  | PlCall w c => 0 <= w < 4 /\ in_range c /\ Forall (in_hand e0 pls w) (shown_by c) /\
      match spec_kind c with
      | Some Ankan | Some Kakan => stands pls = Drew w
      | _ => exists d t, stands pls = Threw d t /\ d <> w /\ claimed_by c = [t]
      end
  | PlReach1 w => 0 <= w < 4 /\ stands pls = Drew w
  | PlReach2 w => 0 <= w < 4 /\ exists t, stands pls = Threw w t
  | PlDora t => in_wall e0 pls t
  end.
(** Every play may follow the plays before it. *)
Definition by_the_rules (e0 : event) (pls : list play) : Prop :=
  forall before a rest, pls = before ++ a :: rest -> allowed e0 before a.

(** The integer list in an attribute. *)
Definition attr_ints (ev : event) (key : string) (l : list Z) : Prop :=
  exists s, dict_get (e_attr ev) key = Ok s /\ ints s = Ok l.
(** A deal: four scores, a dealer, the six numbers of the seed, and thirteen tiles for each
    player, all different and different from the indicator. *)
Definition fair_deal (e0 : event) : Prop :=
  e_tag e0 = "INIT"%string /\
  (exists scores, attr_ints e0 "ten" scores /\ List.length scores = 4%nat) /\
  (exists dealer, attr_int e0 "oya" = Some dealer /\ 0 <= dealer < 4) /\
  (exists r honba sticks d1 d2 ind, attr_ints e0 "seed" [r; honba; sticks; d1; d2; ind] /\ valid_id ind) /\
  (forall p, (p < 4)%nat -> exists tiles, attr_ints e0 (hai_key p) tiles /\ List.length tiles = 13%nat /\ Forall valid_id tiles) /\
  NoDup (first_indicator e0 :: all_dealt e0).
(** A result with its list of scores. *)
Definition scored (e : event) : Prop := result_event e /\ exists l, attr_ints e "sc" l.

(** The scoring and shanten libraries answer every question. *)
Definition libs_answer (L : libs) : Prop := (forall q, exists b, l_agari L q = Ok b) /\ (forall h, exists d, l_shanten L h = Ok d).
(** The events are exactly these plays. *)
Definition events_of (evs : list event) (pls : list play) : Prop := map play_of evs = map Some pls.
(** A round that follows the rules: a deal, plays that may follow one another, results. *)
Definition legal_round (r : list event) : Prop := exists e0 evs pls results, r = e0 :: evs ++ results /\ fair_deal e0 /\
  events_of evs pls /\ by_the_rules e0 pls /\ results <> [] /\ Forall scored results.
(** A log that consists of these rounds, apart from its header and reconnection entries. *)
Definition log_of (root : elem) (rounds : list (list event)) : Prop :=
  exists kept, List.concat rounds = filter kept (traverse root) /\ forall e, kept e = true <-> ~ header_tag (e_tag e).

(** ** What the code checks of the rules *)
(** A deal in which each hand is thirteen different tiles, while two players may hold the same
    tile and the indicator may be a tile somebody holds. *)
Definition proper_deal (e0 : event) : Prop :=
  e_tag e0 = "INIT"%string /\
  (exists scores, attr_ints e0 "ten" scores /\ List.length scores = 4%nat) /\
  (exists dealer, attr_int e0 "oya" = Some dealer /\ 0 <= dealer < 4) /\
  (exists r honba sticks d1 d2 ind, attr_ints e0 "seed" [r; honba; sticks; d1; d2; ind] /\ valid_id ind) /\
  (forall p, (p < 4)%nat -> exists tiles, attr_ints e0 (hai_key p) tiles /\ List.length tiles = 13%nat /\ Forall valid_id tiles /\ NoDup tiles).
(** The same without the conditions on the hands: the attributes can be read and name tiles. *)
Definition readable_deal (e0 : event) : Prop :=
  e_tag e0 = "INIT"%string /\
  (exists scores, attr_ints e0 "ten" scores /\ List.length scores = 4%nat) /\
  (exists dealer, attr_int e0 "oya" = Some dealer /\ 0 <= dealer < 4) /\
  (exists r honba sticks d1 d2 ind, attr_ints e0 "seed" [r; honba; sticks; d1; d2; ind] /\ valid_id ind) /\
  (forall p, (p < 4)%nat -> exists tiles, attr_ints e0 (hai_key p) tiles /\ Forall valid_id tiles).
(** Every player is dealt thirteen different tiles. *)
Definition full_hands (e0 : event) : Prop := forall p, (p < 4)%nat -> List.length (dealt e0 p) = 13%nat /\ NoDup (dealt e0 p).
(** The play is about one of the four players, real tiles and a real meld. *)
Definition meaningful (a : play) : Prop :=
  match a with
  | PlDraw w t | PlDiscard w t => 0 <= w < 4 /\ valid_id t
  | PlCall w c => 0 <= w < 4 /\ in_range c
  | PlReach1 w | PlReach2 w => 0 <= w < 4
  | PlDora t => valid_id t
  end.
(** How often the tile occurs. *)
Definition times (t : Z) (l : list Z) : nat := count_occ Z.eq_dec l t.
(** The player has received the tile more often than given it away. *)
Definition has_tile (e0 : event) (pls : list play) (p t : Z) : Prop :=
  (times t (discarded p pls ++ shown p pls) < times t (dealt e0 (Z.to_nat p) ++ drawn p pls))%nat.
(** The number of tiles in the hand. *)
Definition hand_size (pls : list play) (p : Z) : Z :=
  13 + Z.of_nat (List.length (drawn p pls)) - Z.of_nat (List.length (discarded p pls)) - Z.of_nat (List.length (shown p pls)).
(** What is checked of a play when it comes. *)
Definition checked (e0 : event) (pls : list play) (a : play) : Prop :=
  match a with
  | PlDraw w t => (stands pls = Waiting \/ exists d x, stands pls = Threw d x) /\ ~ has_tile e0 pls w t /\ hand_size pls w mod 3 = 1
  | PlDiscard w t => (exists u, stands pls = Drew u \/ stands pls = Called u) /\ has_tile e0 pls w t /\ hand_size pls w mod 3 = 2
  | PlCall w c => Forall (has_tile e0 pls w) (shown_by c) /\
      match spec_kind c with
      | Some Ankan | Some Kakan => exists u, stands pls = Drew u
      | _ => exists d t, stands pls = Threw d t
      end
  | PlReach1 _ => exists u, stands pls = Drew u
  | PlReach2 _ => exists d t, stands pls = Threw d t
  | PlDora _ => True
  end.
Definition passes_checks (e0 : event) (pls : list play) : Prop :=
  forall before a rest, pls = before ++ a :: rest -> checked e0 before a.
(** What is checked at the end: of no tile type (37: the red fives are counted a second time)
    did more tiles come up than there are, in all and for each player. *)
Definition enough_tiles (e0 : event) (pls : list play) : Prop :=
  forall k, (k < 37)%nat ->
    num k (all_dealt e0) + num k (all_drawn pls) + num k [first_indicator e0] + (if Nat.ltb k 34 then num k (indicators pls) else 0) <= class_size k /\
    forall p, 0 <= p < 4 ->
      num k (dealt e0 (Z.to_nat p) ++ drawn p pls) + num k (discards_of_others p pls) + num k (shown_by_others p pls)
        + num k [first_indicator e0] + (if Nat.ltb k 34 then num k (indicators pls) else 0) <= class_size k.
