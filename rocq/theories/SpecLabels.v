(** Specification vocabulary for execution labels and self-turn candidates (C37, C38). *)
From Coq Require Import ZArith List Bool.
From Verif Require Import Base Naki Decision Process SpecMeld SpecRound.
Import ListNotations.
Open Scope Z_scope.

(** [d] is a candidate of player [w] that shows the tiles of the logged call [c]: same
    kind, same source seat, same tile types shown and claimed, red fives in the same place. *)
Definition same_call (w c : Z) (d : decision) : Prop :=
  exists nk e ex a ex' a', d = NakiDecision w nk e /\
    get_exposed c = Ok (ex, a) /\ get_exposed (nk_code nk) = Ok (ex', a') /\
    spec_kind (nk_code nk) = spec_kind c /\ from_who (nk_code nk) = from_who c /\
    map tile_type ex' = map tile_type ex /\ option_map tile_type a' = option_map tile_type a /\
    (spec_kind c <> Some Kakan -> red_signature ex' a' = red_signature ex a).

(** The normal form of logged call [c] is the code of candidate [d]. *)
Definition normal_form_of (c : Z) (d : decision) : Prop :=
  exists nk w nk' e, mk_naki c = Ok nk /\ d = NakiDecision w nk' e /\ nk_code nk' = nk_conv nk.

(** [l'] is [l] with exactly one member marked as executed, of which [Q] holds. *)
Definition marks (Q : decision -> Prop) (l l' : list decision) : Prop :=
  exists l1 d l2, l = l1 ++ d :: l2 /\ l' = l1 ++ set_executed d :: l2 /\ Q d.

(** A logged call [c] of player [w] marks at most one member of [l], a candidate with the
    same tiles, and marks one if the normal form of the call is among them. *)
Definition call_marks (w c : Z) (l l' : list decision) : Prop :=
  (marks (same_call w c) l l' /\ Exists (normal_form_of c) l) \/ (l' = l /\ ~ Exists (normal_form_of c) l).

Definition unmarked (l : list decision) : Prop := Forall (fun d => d_executed d = false) l.
Definition nmarked (l : list decision) : nat := List.length (filter d_executed l).
Definition of_player (p : Z) (l : list decision) : Prop := Forall (fun d => d_player d = p) l.

(** A half-turn as recorded: win decisions are never marked, at most one call is,
    and there is at most one riichi decision. *)
Definition labels_ok (h : halfturn sobj) : Prop :=
  match h with
  | DuringTurn p _ ds _ => exists wins riichi calls, ds = [wins; riichi; calls] /\ unmarked wins /\
      (List.length riichi <= 1)%nat /\ (nmarked calls <= 1)%nat /\ of_player p (wins ++ riichi ++ calls)
  | DiscardTurn _ _ _ _ => True
  | PostTurn p _ ds _ => List.length ds = 4%nat /\ (nmarked (List.concat (List.concat ds)) <= 1)%nat /\
      forall q, 0 <= q < 4 -> exists wins calls, nth (Z.to_nat q) ds [] = [wins; []; calls] /\ unmarked wins /\
        of_player q (wins ++ calls)
  end.

(** Nothing in the half-turn is marked. *)
Definition none_marked (h : halfturn sobj) : Prop :=
  match h with
  | DuringTurn _ _ ds _ => unmarked (List.concat ds)
  | DiscardTurn _ _ _ _ => True
  | PostTurn _ _ ds _ => unmarked (List.concat (List.concat ds))
  end.

(** The melds of player [p] after the plays: their calls in order; an added kan (bit 4 of
    a code that is not a chi) replaces the first pon of its tile type. *)
Fixpoint without_pon (t : Z) (l : list Z) : list Z :=
  match l with
  | [] => []
  | c :: r => if is_pon c && (p_color (pattern_pon c) * 9 + p_number (pattern_pon c) =? t) then r else c :: without_pon t r
  end.
Definition add_call (l : list Z) (c : Z) : list Z :=
  if is_kakan c then without_pon (hd 0 (shown_by c) / 4) (l ++ [c]) else l ++ [c].
Definition calls_by (p : Z) (pls : list play) : list Z :=
  flat_map (fun e => match e with PlCall w c => if w =? p then [c] else [] | _ => [] end) pls.
Definition meld_codes (p : Z) (pls : list play) : list Z := fold_left add_call (calls_by p pls) [].

(** A call of kind [k] and tile type [t] is among the candidates [l] of [p]. *)
Definition offers_call (p : Z) (k : kind) (t : Z) (l : list decision) : Prop :=
  exists nk ex a, In (NakiDecision p nk false) l /\ spec_kind (nk_code nk) = Some k /\
    get_exposed (nk_code nk) = Ok (ex, a) /\ Forall (fun x => tile_type x = t) ex /\ ex <> [].
(** [p] has a pon of tile type [t]. *)
Definition has_pon (p t : Z) (pls : list play) : Prop :=
  exists c ex a, In c (meld_codes p pls) /\ is_pon c = true /\ get_exposed c = Ok (ex, a) /\
    Forall (fun x => tile_type x = t) ex /\ ex <> [].
