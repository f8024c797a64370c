(** Model of MahjongAI/utils/constants.py. *)
From Coq Require Import ZArith List Bool.
From Verif Require Import Base.
Import ListNotations.
Open Scope Z_scope.

(** constants.py:4-5 REMAINING_TILES: 34 fours, then three ones. *)
Definition REMAINING_TILES : list Z := repeat 4 34 ++ repeat 1 3.

(** constants.py:8-12 TILE2IDX as a list of 136 index lists. *)
Definition TILE2IDX_list : list (list nat) :=
  let base := map (fun i => [Nat.div i 4]) (seq 0 136) in
  upd (upd (upd base 16 (fun l => l ++ [34%nat])) 52 (fun l => l ++ [35%nat])) 88 (fun l => l ++ [36%nat]).

(** [TILE2IDX[tile]] (object array of length 136, Python indexing). *)
Definition tile2idx (tile : Z) : res (list nat) :=
  i <- py_index 136 tile ;; Ok (nth i TILE2IDX_list []).

(** constants.py:15-16 *)
Definition REMAINING_TSUMO : Z := 70.
Definition MAX_SEQUENCE_LENGTH : Z := 150.

(** constants.py:19-20 YAOCHU_TENSOR: note that index 34 (the red five of
    manzu in the 37-wide vectors) is in the list. *)
Definition YAOCHU_TENSOR : list Z :=
  vsets (repeat 0 37) [0; 8; 9; 17; 18; 26; 27; 28; 29; 30; 31; 32; 33; 34]%nat 1.

(** constants.py:23-25 *)
Definition DECISION_AGARI_IDX := 0%nat.
Definition DECISION_REACH_IDX := 1%nat.
Definition DECISION_NAKI_IDX := 2%nat.

(** constants.py:27 *)
Definition PAD_ID : Z := 0.

(** constants.py:30-35 EventTypes *)
Definition ET_EMPTY := 0.
Definition ET_DISCARD := 1.
Definition ET_NAKI := 2.
Definition ET_RIICHI := 3.
Definition ET_NEW_DORA := 4.

(** constants.py:38-43 EventStateTypes *)
Definition EST_EMPTY := 0.
Definition EST_DISCARD := 1.
Definition EST_DURING := 2.
Definition EST_POST := 3.
Definition EST_NEW_DORA := 4.
