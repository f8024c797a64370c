(** Specification vocabulary for event tokens (C09, C10). *)
From Coq Require Import ZArith List Bool.
From Verif Require Import Base Constants Naki Tokens SpecMeld.
Open Scope Z_scope.

(** The public events of a round. *)
Inductive pub_event : Type :=
| EvDiscard (who tile : Z) (tsumogiri : bool)
| EvCall (who code : Z)
| EvRiichi (who : Z)
| EvDora (tile : Z).

(** Players 0-3, tiles 0-36 (34-36 are the red fives), real melds. *)
Definition legal_event (e : pub_event) : Prop :=
  match e with
  | EvDiscard who tile _ => 0 <= who < 4 /\ 0 <= tile < 37
  | EvCall who code => 0 <= who < 4 /\ in_range code
  | EvRiichi who => 0 <= who < 4
  | EvDora tile => 0 <= tile < 37
  end.

(** The token process_xml.py builds for an event. *)
Definition token (e : pub_event) : res Z :=
  match e with
  | EvDiscard who tile ts => discard2idx who tile ts
  | EvCall who code => naki2idx who code
  | EvRiichi who => reach2idx who
  | EvDora tile => new_dora2idx tile
  end.

(** Is the call made on the caller's own turn (closed or added kan)? *)
Definition own_turn_call (code : Z) : bool :=
  match spec_kind code with Some Ankan | Some Kakan => true | _ => false end.
(** Its action index in the head it belongs to. *)
Definition call_action (code : Z) : res Z :=
  if own_turn_call code then get_during_turn_filter_idx code else get_post_turn_filter_idx code.

(** The encoder's view of a token (agent/ordered/encoder.py:183-276). *)
Definition enc_state (tok : Z) := Z.land (Z.shiftr tok 13) 0x7.
Definition enc_type (tok : Z) := Z.land (Z.shiftr tok 10) 0x7.
Definition enc_player (tok : Z) := Z.land (Z.shiftr tok 8) 0x3.
Definition enc_tsumogiri (tok : Z) := Z.land (Z.shiftr tok 7) 0x1.
Definition enc_tile (tok : Z) := Z.land tok 0x7F.
Definition enc_naki (tok : Z) := Z.land tok 0xFF.

(** Two events are the same as far as the public record distinguishes them. *)
Definition same_event (e1 e2 : pub_event) : Prop :=
  match e1, e2 with
  | EvDiscard w1 t1 f1, EvDiscard w2 t2 f2 => w1 = w2 /\ t1 = t2 /\ f1 = f2
  | EvCall w1 c1, EvCall w2 c2 => w1 = w2 /\ own_turn_call c1 = own_turn_call c2 /\ call_action c1 = call_action c2
  | EvRiichi w1, EvRiichi w2 => w1 = w2
  | EvDora t1, EvDora t2 => t1 = t2
  | _, _ => False
  end.

(** Number of tile ids whose entry in the tile index table contains [k]. *)
Definition count_idx (k : nat) : Z :=
  Z.of_nat (length (filter (fun ids => existsb (Nat.eqb k) ids) TILE2IDX_list)).
