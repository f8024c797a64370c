(** Specification vocabulary for training samples (C43-C49, C55, C73-C75). *)
From Coq Require Import ZArith List Bool.
From Verif Require Import Base Naki Decision Process SpecRound SpecTurn Tensor.
Import ListNotations.
Open Scope Z_scope.

(** ** Actions *)
(** The action number of a decision in the head for a player's own turn (0 is pass) and in
    the head for reactions to another player's tile. *)
Definition during_action (d : decision) (i : Z) : Prop :=
  match d with
  | AgariDecision _ _ => i = 1
  | ReachDecision _ _ => i = 2
  | NakiDecision _ nk _ => get_during_turn_filter_idx (nk_code nk) = Ok i
  end.
Definition post_action (d : decision) (i : Z) : Prop :=
  match d with
  | AgariDecision _ _ => i = 1
  | ReachDecision _ _ => i = 2
  | NakiDecision _ nk _ => get_post_turn_filter_idx (nk_code nk) = Ok i
  end.

Definition is_win (d : decision) : Prop := match d with AgariDecision _ _ => True | _ => False end.
Definition is_riichi (d : decision) : Prop := match d with ReachDecision _ _ => True | _ => False end.
Definition is_call (d : decision) : Prop := match d with NakiDecision _ _ _ => True | _ => False end.

(** One player's decisions: at most one win, at most one riichi, and calls that have an
    action number below [n] under [act]. *)
Definition proper (act : decision -> Z -> Prop) (n : Z) (ds : list (list decision)) : Prop :=
  exists wins riichi calls, ds = [wins; riichi; calls] /\
    (List.length wins <= 1)%nat /\ (List.length riichi <= 1)%nat /\
    Forall is_win wins /\ Forall is_riichi riichi /\
    Forall (fun d => is_call d /\ exists i, act d i /\ 2 <= i < n) calls.

(** The decisions of a half-turn are of this form, for all four players after a discard. *)
Definition well_formed {S} (h : halfturn S) : Prop :=
  match h with
  | DuringTurn _ _ ds _ => proper during_action 71 ds
  | DiscardTurn _ _ _ _ => True
  | PostTurn p _ ds _ => 0 <= p < 4 /\ List.length ds = 4%nat /\ Forall (proper post_action 154) ds
  end.

(** ** Which half-turns become samples *)
Definition some_decision (ds : list (list decision)) : bool := existsb (fun l => match l with [] => false | _ => true end) ds.
Definition own_turns {S} (turns : list (halfturn S)) : list (halfturn S) :=
  filter (fun h => match h with DuringTurn _ _ ds _ => some_decision ds | _ => false end) turns.
Definition discards {S} (turns : list (halfturn S)) : list (halfturn S) :=
  filter (fun h => match h with DiscardTurn _ _ _ _ => true | _ => false end) turns.
Definition reactions {S} (turns : list (halfturn S)) : list (halfturn S) :=
  filter (fun h => match h with PostTurn _ _ ds _ => existsb some_decision ds | _ => false end) turns.

Definition decisions_of {S} (h : halfturn S) : list decision :=
  match h with DuringTurn _ _ ds _ => List.concat ds | _ => [] end.
Definition decisions_for {S} (h : halfturn S) (q : Z) : list decision :=
  match h with PostTurn _ _ ds _ => List.concat (nth (Z.to_nat q) ds []) | _ => [] end.
Definition calls_in {S} (h : halfturn S) : list decision :=
  match h with DuringTurn _ _ [_; _; calls] _ => calls | _ => [] end.
Definition tile_of {S} (h : halfturn S) : Z := match h with DiscardTurn _ _ t _ => t | _ => 0 end.

(** The players asked after player [p]'s tile: to the right of [p] and on, those with a
    decision, up to the first one who acted. *)
Fixpoint up_to_actor {S} (h : halfturn S) (ps : list Z) : list Z :=
  match ps with
  | [] => []
  | q :: r =>
      match decisions_for h q with
      | [] => up_to_actor h r
      | l => q :: (if existsb d_executed l then [] else up_to_actor h r)
      end
  end.
Definition asked {S} (h : halfturn S) : list Z :=
  match h with PostTurn p _ _ _ => up_to_actor h [(p + 1) mod 4; (p + 2) mod 4; (p + 3) mod 4] | _ => [] end.

(** ** Rows *)
(** The first [n] tokens, then zeros, 150 in all. *)
Definition tokens_before (tokens : list Z) (n : Z) (r : list Z) : Prop :=
  List.length r = 150%nat /\ forall j, (j < 150)%nat -> nth j r 0 = if Z.of_nat j <? n then nth j tokens 0 else 0.
(** A vector of width [n] with 1 where [P] holds and 0 elsewhere. *)
Definition mask_of (n : Z) (P : Z -> Prop) (m : list Z) : Prop :=
  Z.of_nat (List.length m) = n /\
  forall i, 0 <= i < n -> (nth (Z.to_nat i) m 0 = 1 /\ P i) \/ (nth (Z.to_nat i) m 0 = 0 /\ ~ P i).
Definition allowed_by (r : sample) (i : Z) : Prop := 0 <= i /\ nth (Z.to_nat i) (r_mask r) 0 = 1.

(** The action taken according to the marked decisions: that of a marked one, or [none]. *)
Definition taken (act : decision -> Z -> Prop) (none : Z) (l : list decision) (y : Z) : Prop :=
  (exists d, In d l /\ d_executed d = true /\ act d y) \/ (Forall (fun d => d_executed d = false) l /\ y = none).

(** ** States *)
(** Everything a sample can show about the state has the right size. *)
Definition sizes_ok (v : sview) : Prop :=
  let o := sv_obj v in
  List.length (so_sutehai o) = 4%nat /\ (so_player o < 4)%nat /\
  List.length (so_scores o) = 4%nat /\ List.length (so_parent_tensor o) = 4%nat /\ List.length (so_parent_rounds_remaining o) = 4%nat /\
  List.length (so_double_reaches o) = 4%nat /\ List.length (so_reaches o) = 4%nat /\ List.length (so_ippatsu o) = 4%nat /\
  List.length (sv_menzen v) = 4%nat.
(** Counts as they occur in a hand, among unseen tiles or as flags. *)
Definition counts (v : list Z) : Prop := Forall (fun c => 0 <= c <= 4) v.

(** Reading a count back from its representation. *)
Definition plane_count (l : list Z) : Z := vsum l.
Definition decode (x : list (list (list Z))) : list (list Z) := map (map plane_count) x.

(** ** Rounds *)
(** The plays of a round: everything between INIT and the first result event. *)
Definition plays_of_round (evs : list event) (pls : list play) : Prop :=
  exists e0 plays results, evs = e0 :: plays ++ results /\ Forall (fun e => ~ result_event e) plays /\ Forall result_event results /\
    map play_of plays = map Some pls.
(** No code is a pon and an added kan at once. *)
Definition unambiguous (pls : list play) : Prop := forall w c, In (PlCall w c) pls -> is_pon c && is_kakan c = false.
(** The seats are consistent, codes are unambiguous and nobody pays two riichi sticks. *)
Definition orderly (pls : list play) : Prop := consistent pls /\ unambiguous pls /\ forall p, 0 <= p < 4 -> sticks p pls <= 1.
