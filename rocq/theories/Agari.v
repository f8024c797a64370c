(** Model of MahjongAI/utils/agari.py.  The external scoring library
    (mahjong.hand_calculating, TilesConverter) is an explicit function argument:
    it receives everything the code passes to it and answers whether the hand
    wins, or raises. *)
From Coq Require Import ZArith List Bool String Ascii.
From Verif Require Import Base Constants Naki Decision.
Import ListNotations.
Open Scope Z_scope.

(** mahjong.meld.Meld as constructed in agari.py:88,97,103,109,115 *)
Inductive meld_type := M_CHI | M_PON | M_KAN | M_SHOUMINKAN.
Record lib_meld := MkMeld { lm_type : meld_type; lm_tiles : list Z; lm_opened : bool }.

(** Everything handed to the scoring library for one evaluation:
    string_to_136_array (76-78, 180-182), HandConfig (121-136, 226-243) and
    estimate_hand_value (139-145, 245-251).  The constant OPTIONS and
    has_aka_dora=True are part of the library model. *)
Record query := MkQuery {
  q_man : string; q_pin : string; q_sou : string; q_honors : string;
  q_win_tile : Z; q_melds : list lib_meld; q_doras : list Z;
  q_tsumo : bool; q_riichi : bool; q_ippatsu : bool; q_rinshan : bool; q_chankan : bool;
  q_haitei : bool; q_houtei : bool; q_daburu : bool; q_tenhou : bool; q_chiihou : bool; q_renhou : bool;
  q_player_wind : Z; q_round_wind : Z; q_kyotaku : Z; q_honba : Z }.

(** str(d) for a digit 1-9 *)
Definition digit_char (d : Z) : ascii := ascii_of_nat (Z.to_nat (48 + d)).
(** "".join(map(str, lst)) *)
Definition join_digits (l : list Z) : string := string_of_list_ascii (map digit_char l).
(** [x] * n (empty for n <= 0) *)
Definition times (x n : Z) : list Z := repeat x (Z.to_nat n).

(** agari.py:262-277 *)
Definition suit_digits (h : list Z) (i : Z) : list Z :=
  flat_map (fun j => times (j + 1) (hget h (i + j))) (zrange 9).
Definition honor_digits (h : list Z) : list Z :=
  flat_map (fun j => times (j + 27 - 26) (hget h (j + 27))) (zrange 7).
Definition hand_tensor2strs (h : list Z) : string * string * string * string :=
  (join_digits (suit_digits h 0), join_digits (suit_digits h 9), join_digits (suit_digits h 18),
   join_digits (honor_digits h)).

(** agari.py:82-119 and, identically, 187-224: one meld for the library. *)
Definition lib_meld_of (c : Z) : res lib_meld :=
  if is_chi c then
    let p := pattern_chi c in
    Ok (MkMeld M_CHI (map (fun i => (p_color p * 9 + p_number p + i) * 4 + (if p_red p then 0 else 1)) (zrange 3)) true)
  else if is_pon c then
    let p := pattern_pon c in
    Ok (MkMeld M_PON (map (fun i => (p_color p * 9 + p_number p) * 4 + i + (if p_red p then 0 else 1)) (zrange 3)) true)
  else if is_kakan c then
    let p := pattern_kakan c in
    Ok (MkMeld M_SHOUMINKAN (map (fun i => (p_color p * 9 + p_number p) * 4 + i) (zrange 4)) true)
  else if is_minkan c then
    let p := pattern_minkan c in
    Ok (MkMeld M_KAN (map (fun i => (p_color p * 9 + p_number p) * 4 + i) (zrange 4)) true)
  else if is_ankan c then
    let p := pattern_ankan c in
    Ok (MkMeld M_KAN (map (fun i => (p_color p * 9 + p_number p) * 4 + i) (zrange 4)) false)
  else Err ValueError.

(** truthiness of an int flag *)
Definition truthy (x : Z) : bool := negb (x =? 0).

(** The arguments common to the two functions. *)
Record agari_args := MkArgs {
  g_doras : list Z; g_reaches : list Z; g_ippatsu : list Z; g_dreaches : list Z;
  g_player_wind : Z; g_round_wind : Z; g_kyotaku : Z; g_honba : Z }.

(** agari.py:62-151, the body of the loop for player [p] with hand vector [h]: the
    hand vector after the call and the ron decision.  The vector is incremented at 72
    and restored at 74, before anything can raise. *)
Definition ron_for (lib : query -> res bool) (a : agari_args) (discarded_tile : Z) (is_chankan is_haitei : bool)
    (renhou : bool) (d : nat) (p : nat) (h : list Z) (nakis : list naki) (sute : list Z)
  : res (list Z * option decision) :=
  if truthy (vget sute d) then Ok (h, None)
  else
    let h1 := vadd h d 1 in
    let '(man, pin, sou, honors) := hand_tensor2strs h1 in
    let h2 := vadd h1 d (-1) in
    melds <- mapM (fun nk => lib_meld_of (nk_code nk)) nakis ;;
    ok <- lib (MkQuery man pin sou honors discarded_tile melds (g_doras a)
                 false (truthy (vget (g_reaches a) p)) (truthy (vget (g_ippatsu a) p)) false is_chankan
                 is_haitei false (truthy (vget (g_dreaches a) p)) false false renhou
                 (g_player_wind a) (g_round_wind a) (g_kyotaku a) (g_honba a)) ;;
    Ok (h2, if ok : bool then Some (AgariDecision (Z.of_nat p) false) else None).

(** agari.py:40-153.  Returns the hand vectors after the call and the four slots. *)
Definition evaluate_ron (lib : query -> res bool) (a : agari_args) (player : Z) (htf : list (list Z))
    (naki_list : list (list naki)) (sute : list (list Z)) (discarded_tile : Z)
    (is_chankan is_haitei : bool) (is_renhou : bool)
  : res (list (list Z) * list (option decision)) :=
  idx <- tile2idx discarded_tile ;;
  let d := hd 0%nat idx in
  rs <- mapM (fun p : nat =>
          let h := row htf p in
          if Z.of_nat p =? player then Ok (h, None)
          else ron_for lib a discarded_tile is_chankan is_haitei is_renhou d p h (row naki_list p) (row sute p))
        (seq 0 4) ;;
  Ok (map fst rs, map snd rs).

(** agari.py:156-259 *)
Definition evaluate_tsumo (lib : query -> res bool) (a : agari_args) (p : nat) (htf : list (list Z))
    (naki_list : list (list naki)) (tsumo_tile : Z) (is_haitei is_rinshan is_tenhou is_chiihou : bool)
  : res (list decision) :=
  let '(man, pin, sou, honors) := hand_tensor2strs (row htf p) in
  melds <- mapM (fun nk => lib_meld_of (nk_code nk)) (row naki_list p) ;;
  ok <- lib (MkQuery man pin sou honors tsumo_tile melds (g_doras a)
               true (truthy (vget (g_reaches a) p)) (truthy (vget (g_ippatsu a) p)) is_rinshan false
               is_haitei false (truthy (vget (g_dreaches a) p)) is_tenhou is_chiihou false
               (g_player_wind a) (g_round_wind a) (g_kyotaku a) (g_honba a)) ;;
  Ok (if ok : bool then [AgariDecision (Z.of_nat p) false] else []).
