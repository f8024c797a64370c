(** Model of the token embedding of the encoders: Encoder.forward in
    MahjongAI/agents/transformer.py:183-266 (the same text in transformer_conv.py and
    transformer_conv_large.py) and transformer_conv_ordered.py:183-276, up to the blocks.
    The input of the blocks at one position is a sum of table rows, each multiplied by a
    mask.  This file models which rows are looked up and which masks are on; the sum is in
    EncoderSum.v. *)
From Coq Require Import ZArith List Bool.
From Verif Require Import Base Constants Tensor.
Import ListNotations.
Open Scope Z_scope.

Inductive table := TType | TTile | TPlayer | TTsumogiri | TPosition | TDuring | TPost.

(** transformer.py:114-123 and transformer_conv_ordered.py:145-160: rows per table *)
Definition table_rows (a : agent) (t : table) : Z :=
  match t with
  | TType => 4
  | TTile => 37
  | TPlayer => 4
  | TTsumogiri => match a with ORDERED => 2 | _ => 1 end
  | TPosition => 150
  | TDuring => 71
  | TPost => 154
  end.

Record lookup := MkLookup { lk_table : table; lk_index : Z; lk_on : bool }.

(** transformer.py:194-199: the fields of a token *)
Definition event_type (t : Z) : Z := Z.land (Z.shiftr t 13) 7.
Definition embedding_type (t : Z) : Z := Z.land (Z.shiftr t 10) 7.
Definition player_idx (t : Z) : Z := Z.land (Z.shiftr t 8) 3.
Definition tile_encoding (t : Z) : Z := Z.land t 0x7F.
Definition tsumogiri (t : Z) : Z := Z.land (Z.shiftr t 7) 1.
Definition naki_idx (t : Z) : Z := Z.land t 0xFF.

(** transformer.py:201-266 for the first three agents, whose masks are the negation of
    what the comments say except for the position; transformer_conv_ordered.py:199-267,
    where players are counted from [player].  [pos] is the position in the row. *)
Definition lookups (a : agent) (player : Z) (pos : nat) (t : Z) : list lookup :=
  let ev := event_type t in
  let ty := Z.max 0 (embedding_type t - 1) in
  let tile := Z.min 36 (tile_encoding t) in
  let during := Z.min 70 (naki_idx t) in
  let post := Z.min 153 (naki_idx t) in
  match a with
  | ORDERED =>
      [MkLookup TType ty (negb (ev =? EST_EMPTY));
       MkLookup TTile tile ((ev =? EST_DISCARD) || (ev =? EST_NEW_DORA));
       MkLookup TPlayer ((player_idx t - player) mod 4) ((ev =? EST_DISCARD) || (ev =? EST_DURING) || (ev =? EST_POST));
       MkLookup TTsumogiri (tsumogiri t) ((ev =? EST_DISCARD) && negb (tsumogiri t =? 0));
       MkLookup TPosition (Z.of_nat pos) (negb (ev =? EST_EMPTY));
       MkLookup TDuring during ((ev =? EST_DURING) && (3 <=? naki_idx t));
       MkLookup TPost post ((ev =? EST_POST) && (2 <=? naki_idx t))]
  | _ =>
      [MkLookup TType ty (ev =? EST_EMPTY);
       MkLookup TTile tile (negb (ev =? EST_DISCARD) && negb (ev =? EST_NEW_DORA));
       MkLookup TPlayer (player_idx t) (negb (ev =? EST_DISCARD) && negb (ev =? EST_DURING) && negb (ev =? EST_POST));
       MkLookup TTsumogiri 0 (negb (ev =? EST_DISCARD) || (tsumogiri t =? 0));
       MkLookup TPosition (Z.of_nat pos) (negb (ev =? EST_EMPTY));
       MkLookup TDuring during (negb (ev =? EST_DURING) || (naki_idx t <? 3));
       MkLookup TPost post (negb (ev =? EST_POST) || (naki_idx t <? 2))]
  end.

(** Every row is fetched, whether its mask is on or not; a row outside its table raises
    IndexError.  The result lists the rows whose mask is on. *)
Definition encode_token (a : agent) (player : Z) (pos : nat) (t : Z) : res (list (table * Z)) :=
  let l := lookups a player pos t in
  if forallb (fun k => (0 <=? lk_index k) && (lk_index k <? table_rows a (lk_table k))) l
  then Ok (map (fun k => (lk_table k, lk_index k)) (filter lk_on l))
  else Err IndexError.

(** One row of tokens.  [player] is used by the ordered agent only. *)
Definition encode_row (a : agent) (player : Z) (tokens : list Z) : res (list (list (table * Z))) :=
  mapM (fun p => encode_token a player (fst p) (snd p)) (enumerate tokens).
