(** Model of MahjongAI/gameinfo.py. *)
From Coq Require Import ZArith List Bool.
From Verif Require Import Base.
Import ListNotations.
Open Scope Z_scope.

(** gameinfo.py:5-24; a GameInfo object is its [go] integer. *)
Definition against_human (go : Z) : Z := Z.land go 0x1.
Definition no_red (go : Z) : Z := Z.shiftr (Z.land go 0x2) 1.
Definition kansaki (go : Z) : Z := Z.shiftr (Z.land go 0x4) 2.
Definition tonnan (go : Z) : Z := Z.shiftr (Z.land go 0x8) 3.
Definition three_players (go : Z) : Z := Z.shiftr (Z.land go 0x10) 4.
Definition fast (go : Z) : Z := Z.shiftr (Z.land go 0x40) 6.
Definition level (go : Z) : Z := Z.shiftr (Z.land go 0xA0) 5.
(** gameinfo.py:26-27 *)
Definition n_rounds (go : Z) : Z := 4 * (tonnan go + 1).

(** gameinfo.py:33-42 RoundInfo *)
Record roundinfo := MkRoundInfo {
  ri_remaining_rounds : Z;
  ri_parent_rounds_remaining : list Z;
  ri_player_wind : Z;
  ri_round_wind : Z }.
Definition round_info (go curr_round : Z) : roundinfo :=
  let n := 4 * (tonnan go + 1) in
  let rem := n - curr_round in
  MkRoundInfo rem (map (fun i => (rem + i) / 4) (zrange 4)) (curr_round mod 4) (curr_round / 4).
