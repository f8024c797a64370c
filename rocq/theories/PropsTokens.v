(** C09-C11: event tokens and game flags; C66: the tile index table.  Statements
    only; proofs are in TokensLemmas.v. *)
From Coq Require Import ZArith List Bool Lia.
From Verif Require Import Base Constants Naki Tokens GameInfo SpecMeld SpecTokens TokensLemmas.
Import ListNotations.
Open Scope Z_scope.

(** C09 *)
Theorem C09_token_decodes : forall e, legal_event e -> exists tok, token e = Ok tok /\
  match e with
  | EvDiscard who tile ts =>
      enc_state tok = EST_DISCARD /\ enc_player tok = who /\ enc_tile tok = tile /\ enc_tsumogiri tok = b2z ts
  | EvCall who c =>
      enc_state tok = (if own_turn_call c then EST_DURING else EST_POST) /\ enc_type tok = ET_NAKI /\
      enc_player tok = who /\ call_action c = Ok (enc_naki tok)
  | EvRiichi who => enc_state tok = EST_DURING /\ enc_type tok = ET_RIICHI /\ enc_player tok = who /\ enc_naki tok = 2
  | EvDora tile => enc_state tok = EST_NEW_DORA /\ enc_type tok = ET_NEW_DORA /\ enc_tile tok = tile
  end.
Proof. exact token_decodes. Qed.
Print Assumptions C09_token_decodes.
Example C09_example : token (EvDiscard 3 36 true) = Ok 11172 /\ legal_event (EvDiscard 3 36 true) /\
  token (EvCall 2 15) = Ok 27138 /\ legal_event (EvCall 2 15).
Proof.
  split; [vm_compute; reflexivity|]. split; [cbn; lia|]. split; [vm_compute; reflexivity|].
  split; [lia|]. vm_compute. reflexivity.
Qed.

(** C10 *)
Theorem C10_unambiguous : forall e1 e2 tok, legal_event e1 -> legal_event e2 ->
  token e1 = Ok tok -> token e2 = Ok tok -> same_event e1 e2.
Proof. exact token_injective. Qed.
Print Assumptions C10_unambiguous.
Theorem C10_never_padding : forall e tok, legal_event e -> token e = Ok tok -> PAD_ID < tok < 2 ^ 16.
Proof. exact token_range. Qed.
Print Assumptions C10_never_padding.
Example C10_example : token (EvRiichi 0) = Ok 19458 /\ token (EvRiichi 1) = Ok 19714 /\ token (EvDora 0) = Ok 36864.
Proof. repeat split; (vm_compute; reflexivity). Qed.

(** C11.  [field g k 1] is bit k of g. *)
Theorem C11_flags : forall g,
  against_human g = field g 0 1 /\ no_red g = field g 1 1 /\ kansaki g = field g 2 1 /\
  tonnan g = field g 3 1 /\ three_players g = field g 4 1 /\ fast g = field g 6 1 /\
  level g = field g 5 1 + 4 * field g 7 1.
Proof. exact game_flags. Qed.
Print Assumptions C11_flags.
Theorem C11_round_counts : forall g n,
  let r := round_info g n in
  (n_rounds g = 4 \/ n_rounds g = 8) /\
  ri_remaining_rounds r = n_rounds g - n /\
  exists a b c d, ri_parent_rounds_remaining r = [a; b; c; d] /\
    a <= b <= c /\ c <= d <= a + 1 /\ a + b + c + d = ri_remaining_rounds r.
Proof. exact round_counts. Qed.
Print Assumptions C11_round_counts.
Example C11_example : ri_parent_rounds_remaining (round_info 169 3) = [1; 1; 1; 2] /\ n_rounds 169 = 8.
Proof. split; vm_compute; reflexivity. Qed.

(** C66 *)
Theorem C66_tile_index : forall id, 0 <= id < 136 ->
  tile2idx id = Ok (if id =? 16 then [4; 34]%nat else if id =? 52 then [13; 35]%nat else if id =? 88 then [22; 36]%nat
                    else [Z.to_nat (id / 4)]).
Proof. exact tile_index. Qed.
Print Assumptions C66_tile_index.
Theorem C66_counts : forall k, (k < 37)%nat -> count_idx k = nth k REMAINING_TILES 0.
Proof. exact tile_counts. Qed.
Print Assumptions C66_counts.
Theorem C66_out_of_range : forall id, id < -136 \/ 136 <= id -> tile2idx id = Err IndexError.
Proof. exact tile_out_of_range. Qed.
Print Assumptions C66_out_of_range.
Example C66_example : tile2idx 52 = Ok [13; 35]%nat /\ tile2idx 135 = Ok [33]%nat.
Proof. split; vm_compute; reflexivity. Qed.
