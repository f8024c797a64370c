(** Model of MahjongAI/process_xml.py:31-591: turning a parsed log into half-turns
    and event tokens.  numpy float counts are integers (every operation on them is
    +1, -1 or assignment of 0/1).  The scoring library, and the external
    mahjong.shanten solver, are function arguments. *)
From Coq Require Import ZArith List Bool String Ascii.
From Verif Require Import Base Constants Naki Decision Tokens GameInfo Agari.
Import ListNotations.
Open Scope Z_scope.

(** process_xml.py:555 {"event": tag, "attr": attrib} *)
Record event := MkEvent { e_tag : string; e_attr : attrs }.

(** ** Half-turns and state objects *)

(** turn.py:26-74.  [S] is the type of the state object. *)
Inductive halfturn (S : Type) : Type :=
| DuringTurn (player : Z) (so : S) (decisions : list (list decision)) (encoding_idx : Z)
| DiscardTurn (player : Z) (so : S) (discarded_tile : Z) (encoding_idx : Z)
| PostTurn (player : Z) (so : S) (decisions : list (list (list decision))) (encoding_idx : Z).
Arguments DuringTurn {S}. Arguments DiscardTurn {S}. Arguments PostTurn {S}.

(** state.py:6-48 as built at process_xml.py:223-243 and 387-407.  Fields that hold a
    copy, or an object that is never mutated afterwards, are stored by value.  The five
    fields that alias arrays or lists which the event loop keeps mutating
    (hand_tensor, remaining_tiles, remaining_tiles_pov, is_menzen, melds) are not
    stored: they are read from the round's variables when the object is looked at
    (see [observe]); [so_player] says whose hand is referenced. *)
Record sobj := MkSobj {
  so_remaining_turns : Z; so_sutehai : list (list Z);
  so_double_reaches : list Z; so_reaches : list Z; so_ippatsu : list Z;
  so_scores : list Z; so_kyotaku : Z; so_honba : Z; so_dora : list Z;
  so_parent_tensor : list Z; so_rounds_remaining : Z; so_parent_rounds_remaining : list Z;
  so_remaining_tsumo : Z; so_player : nat }.

(** What a consumer of the object reads. *)
Record sview := MkSview {
  sv_obj : sobj; sv_hand : list Z; sv_remaining : list Z; sv_pov : list Z;
  sv_menzen : list Z; sv_melds : list (list naki) }.

(** ** The variables of one round (process_xml.py:51-110) *)
(** [s_cur]: curr_halfturn is not None; it is then the half-turn appended last.
    [s_half] lists the half-turns newest first.  [s_sobj]: the variable stateObj,
    None while unassigned in this round. *)
Record rstate := MkState {
  s_hands : list (list Z);
  s_ht : list (list Z);
  s_htf : list (list Z);
  s_rem : list Z;
  s_pov : list (list Z);
  s_sute : list (list Z);
  s_rtsumo : Z;
  s_doras : list Z;
  s_scores : list Z;
  s_kyotaku : Z;
  s_reaches : list Z;
  s_dreaches : list Z;
  s_ippatsu : list Z;
  s_menzen : list Z;
  s_melds : list (list naki);
  s_cur : bool;
  s_cycles : Z;
  s_acquired : option Z;
  s_sobj : option sobj;
  s_half : list (halfturn sobj);
  s_tokens : list Z }.

Definition set_hands (v : list (list Z)) (s : rstate) : rstate :=
  MkState v (s_ht s) (s_htf s) (s_rem s) (s_pov s) (s_sute s) (s_rtsumo s) (s_doras s) (s_scores s) (s_kyotaku s) (s_reaches s) (s_dreaches s) (s_ippatsu s) (s_menzen s) (s_melds s) (s_cur s) (s_cycles s) (s_acquired s) (s_sobj s) (s_half s) (s_tokens s).
Definition set_ht (v : list (list Z)) (s : rstate) : rstate :=
  MkState (s_hands s) v (s_htf s) (s_rem s) (s_pov s) (s_sute s) (s_rtsumo s) (s_doras s) (s_scores s) (s_kyotaku s) (s_reaches s) (s_dreaches s) (s_ippatsu s) (s_menzen s) (s_melds s) (s_cur s) (s_cycles s) (s_acquired s) (s_sobj s) (s_half s) (s_tokens s).
Definition set_htf (v : list (list Z)) (s : rstate) : rstate :=
  MkState (s_hands s) (s_ht s) v (s_rem s) (s_pov s) (s_sute s) (s_rtsumo s) (s_doras s) (s_scores s) (s_kyotaku s) (s_reaches s) (s_dreaches s) (s_ippatsu s) (s_menzen s) (s_melds s) (s_cur s) (s_cycles s) (s_acquired s) (s_sobj s) (s_half s) (s_tokens s).
Definition set_rem (v : list Z) (s : rstate) : rstate :=
  MkState (s_hands s) (s_ht s) (s_htf s) v (s_pov s) (s_sute s) (s_rtsumo s) (s_doras s) (s_scores s) (s_kyotaku s) (s_reaches s) (s_dreaches s) (s_ippatsu s) (s_menzen s) (s_melds s) (s_cur s) (s_cycles s) (s_acquired s) (s_sobj s) (s_half s) (s_tokens s).
Definition set_pov (v : list (list Z)) (s : rstate) : rstate :=
  MkState (s_hands s) (s_ht s) (s_htf s) (s_rem s) v (s_sute s) (s_rtsumo s) (s_doras s) (s_scores s) (s_kyotaku s) (s_reaches s) (s_dreaches s) (s_ippatsu s) (s_menzen s) (s_melds s) (s_cur s) (s_cycles s) (s_acquired s) (s_sobj s) (s_half s) (s_tokens s).
Definition set_sute (v : list (list Z)) (s : rstate) : rstate :=
  MkState (s_hands s) (s_ht s) (s_htf s) (s_rem s) (s_pov s) v (s_rtsumo s) (s_doras s) (s_scores s) (s_kyotaku s) (s_reaches s) (s_dreaches s) (s_ippatsu s) (s_menzen s) (s_melds s) (s_cur s) (s_cycles s) (s_acquired s) (s_sobj s) (s_half s) (s_tokens s).
Definition set_rtsumo (v : Z) (s : rstate) : rstate :=
  MkState (s_hands s) (s_ht s) (s_htf s) (s_rem s) (s_pov s) (s_sute s) v (s_doras s) (s_scores s) (s_kyotaku s) (s_reaches s) (s_dreaches s) (s_ippatsu s) (s_menzen s) (s_melds s) (s_cur s) (s_cycles s) (s_acquired s) (s_sobj s) (s_half s) (s_tokens s).
Definition set_doras (v : list Z) (s : rstate) : rstate :=
  MkState (s_hands s) (s_ht s) (s_htf s) (s_rem s) (s_pov s) (s_sute s) (s_rtsumo s) v (s_scores s) (s_kyotaku s) (s_reaches s) (s_dreaches s) (s_ippatsu s) (s_menzen s) (s_melds s) (s_cur s) (s_cycles s) (s_acquired s) (s_sobj s) (s_half s) (s_tokens s).
Definition set_scores (v : list Z) (s : rstate) : rstate :=
  MkState (s_hands s) (s_ht s) (s_htf s) (s_rem s) (s_pov s) (s_sute s) (s_rtsumo s) (s_doras s) v (s_kyotaku s) (s_reaches s) (s_dreaches s) (s_ippatsu s) (s_menzen s) (s_melds s) (s_cur s) (s_cycles s) (s_acquired s) (s_sobj s) (s_half s) (s_tokens s).
Definition set_kyotaku (v : Z) (s : rstate) : rstate :=
  MkState (s_hands s) (s_ht s) (s_htf s) (s_rem s) (s_pov s) (s_sute s) (s_rtsumo s) (s_doras s) (s_scores s) v (s_reaches s) (s_dreaches s) (s_ippatsu s) (s_menzen s) (s_melds s) (s_cur s) (s_cycles s) (s_acquired s) (s_sobj s) (s_half s) (s_tokens s).
Definition set_reaches (v : list Z) (s : rstate) : rstate :=
  MkState (s_hands s) (s_ht s) (s_htf s) (s_rem s) (s_pov s) (s_sute s) (s_rtsumo s) (s_doras s) (s_scores s) (s_kyotaku s) v (s_dreaches s) (s_ippatsu s) (s_menzen s) (s_melds s) (s_cur s) (s_cycles s) (s_acquired s) (s_sobj s) (s_half s) (s_tokens s).
Definition set_dreaches (v : list Z) (s : rstate) : rstate :=
  MkState (s_hands s) (s_ht s) (s_htf s) (s_rem s) (s_pov s) (s_sute s) (s_rtsumo s) (s_doras s) (s_scores s) (s_kyotaku s) (s_reaches s) v (s_ippatsu s) (s_menzen s) (s_melds s) (s_cur s) (s_cycles s) (s_acquired s) (s_sobj s) (s_half s) (s_tokens s).
Definition set_ippatsu (v : list Z) (s : rstate) : rstate :=
  MkState (s_hands s) (s_ht s) (s_htf s) (s_rem s) (s_pov s) (s_sute s) (s_rtsumo s) (s_doras s) (s_scores s) (s_kyotaku s) (s_reaches s) (s_dreaches s) v (s_menzen s) (s_melds s) (s_cur s) (s_cycles s) (s_acquired s) (s_sobj s) (s_half s) (s_tokens s).
Definition set_menzen (v : list Z) (s : rstate) : rstate :=
  MkState (s_hands s) (s_ht s) (s_htf s) (s_rem s) (s_pov s) (s_sute s) (s_rtsumo s) (s_doras s) (s_scores s) (s_kyotaku s) (s_reaches s) (s_dreaches s) (s_ippatsu s) v (s_melds s) (s_cur s) (s_cycles s) (s_acquired s) (s_sobj s) (s_half s) (s_tokens s).
Definition set_melds (v : list (list naki)) (s : rstate) : rstate :=
  MkState (s_hands s) (s_ht s) (s_htf s) (s_rem s) (s_pov s) (s_sute s) (s_rtsumo s) (s_doras s) (s_scores s) (s_kyotaku s) (s_reaches s) (s_dreaches s) (s_ippatsu s) (s_menzen s) v (s_cur s) (s_cycles s) (s_acquired s) (s_sobj s) (s_half s) (s_tokens s).
Definition set_cur (v : bool) (s : rstate) : rstate :=
  MkState (s_hands s) (s_ht s) (s_htf s) (s_rem s) (s_pov s) (s_sute s) (s_rtsumo s) (s_doras s) (s_scores s) (s_kyotaku s) (s_reaches s) (s_dreaches s) (s_ippatsu s) (s_menzen s) (s_melds s) v (s_cycles s) (s_acquired s) (s_sobj s) (s_half s) (s_tokens s).
Definition set_cycles (v : Z) (s : rstate) : rstate :=
  MkState (s_hands s) (s_ht s) (s_htf s) (s_rem s) (s_pov s) (s_sute s) (s_rtsumo s) (s_doras s) (s_scores s) (s_kyotaku s) (s_reaches s) (s_dreaches s) (s_ippatsu s) (s_menzen s) (s_melds s) (s_cur s) v (s_acquired s) (s_sobj s) (s_half s) (s_tokens s).
Definition set_acquired (v : option Z) (s : rstate) : rstate :=
  MkState (s_hands s) (s_ht s) (s_htf s) (s_rem s) (s_pov s) (s_sute s) (s_rtsumo s) (s_doras s) (s_scores s) (s_kyotaku s) (s_reaches s) (s_dreaches s) (s_ippatsu s) (s_menzen s) (s_melds s) (s_cur s) (s_cycles s) v (s_sobj s) (s_half s) (s_tokens s).
Definition set_sobj (v : option sobj) (s : rstate) : rstate :=
  MkState (s_hands s) (s_ht s) (s_htf s) (s_rem s) (s_pov s) (s_sute s) (s_rtsumo s) (s_doras s) (s_scores s) (s_kyotaku s) (s_reaches s) (s_dreaches s) (s_ippatsu s) (s_menzen s) (s_melds s) (s_cur s) (s_cycles s) (s_acquired s) v (s_half s) (s_tokens s).
Definition set_half (v : list (halfturn sobj)) (s : rstate) : rstate :=
  MkState (s_hands s) (s_ht s) (s_htf s) (s_rem s) (s_pov s) (s_sute s) (s_rtsumo s) (s_doras s) (s_scores s) (s_kyotaku s) (s_reaches s) (s_dreaches s) (s_ippatsu s) (s_menzen s) (s_melds s) (s_cur s) (s_cycles s) (s_acquired s) (s_sobj s) v (s_tokens s).
Definition set_tokens (v : list Z) (s : rstate) : rstate :=
  MkState (s_hands s) (s_ht s) (s_htf s) (s_rem s) (s_pov s) (s_sute s) (s_rtsumo s) (s_doras s) (s_scores s) (s_kyotaku s) (s_reaches s) (s_dreaches s) (s_ippatsu s) (s_menzen s) (s_melds s) (s_cur s) (s_cycles s) (s_acquired s) (s_sobj s) (s_half s) v.

(** Values fixed for the round (process_xml.py:51-61). *)
Record renv := MkEnv {
  n_honba : Z; n_parent_tensor : list Z; n_rounds_remaining : Z; n_parent_rounds_remaining : list Z;
  n_player_wind : Z; n_round_wind : Z }.

(** The external libraries: scoring, and mahjong.shanten.Shanten.calculate_shanten. *)
Record libs := MkLibs { l_agari : query -> res bool; l_shanten : list Z -> res Z }.

(** Reading a state object while the round's variables are [s]. *)
Definition observe (s : rstate) (o : sobj) : sview :=
  MkSview o (row (s_ht s) (so_player o)) (s_rem s) (row (s_pov s) (so_player o)) (s_menzen s) (s_melds s).

(** process_xml.py:223-243, 387-407 *)
Definition capture (n : renv) (p : nat) (s : rstate) : sobj :=
  MkSobj (s_rtsumo s) (s_sute s) (s_dreaches s) (s_reaches s) (s_ippatsu s) (s_scores s) (s_kyotaku s)
         (n_honba n) (s_doras s) (n_parent_tensor n) (n_rounds_remaining n) (n_parent_rounds_remaining n)
         (s_rtsumo s) p.

Definition args_of (n : renv) (s : rstate) : agari_args :=
  MkArgs (s_doras s) (s_reaches s) (s_ippatsu s) (s_dreaches s) (n_player_wind n) (n_round_wind n)
         (s_kyotaku s) (n_honba n).

(** min(list) truthiness for a list of flags; sum(list) truthiness *)
Definition all_set (l : list Z) : bool := forallb truthy l.
Definition any_set (l : list Z) : bool := truthy (vsum l).

(** x[i] = v for a Python list (negative indices wrap) *)
Definition pset (l : list Z) (i v : Z) : res (list Z) :=
  k <- py_index (List.length l) i ;; Ok (vset l k v).
Definition padd (l : list Z) (i v : Z) : res (list Z) :=
  k <- py_index (List.length l) i ;; Ok (vadd l k v).

(** one array of a list of arrays, updated in place *)
Definition upd_row (m : list (list Z)) (p : nat) (f : list Z -> list Z) := upd m p f.
Definition map_rows (m : list (list Z)) (f : list Z -> list Z) := map f m.
(** the same for every row but row [p] *)
Definition map_others (m : list (list Z)) (p : nat) (f : list Z -> list Z) : list (list Z) :=
  map (fun ir => if Nat.eqb (fst ir) p then snd ir else f (snd ir)) (combine (seq 0 (List.length m)) m).

(** ** Initialisation, process_xml.py:47-110 *)
Definition ints (s : string) : res (list Z) := mapM py_int (split_comma s).

(** hands[player_indices, hand_indices] = 1.0 (89-91): the four index lists must have
    the same length for numpy to accept them. *)
Definition fill_hands (hi : list (list Z)) : res (list (list Z)) :=
  _ <- (if forallb (fun l => Nat.eqb (List.length l) (List.length (row hi 0))) hi then Ok tt else Err ValueError) ;;
  mapM (fun l => ks <- mapM (py_index 136) l ;; Ok (vsets (repeat 0 136) ks 1)) hi.

(** process_xml.py:74-79 for one player: hand counts, own view, shared remaining tiles *)
Definition deal_tile (s : list Z * list Z * list Z) (tile : Z) : res (list Z * list Z * list Z) :=
  let '(ht, pov, rem) := s in
  ti <- tile2idx tile ;;
  Ok (vadds ht ti 1, vadds pov ti (-1), vadds rem ti (-1)).
Fixpoint deal_all (his : list (list Z)) (rem : list Z) : res (list (list Z) * list (list Z) * list Z) :=
  match his with
  | [] => Ok ([], [], rem)
  | hi :: r =>
      '(ht, pov, rem1) <- foldM deal_tile (repeat 0 37, REMAINING_TILES, rem) hi ;;
      '(hts, povs, rem2) <- deal_all r rem1 ;;
      Ok (ht :: hts, pov :: povs, rem2)
  end.

Definition hai_key (p : nat) : string := String "h" (String "a" (String "i" (String (ascii_of_nat (48 + p)) EmptyString))).

Definition init_round (go : Z) (ev : event) : res (renv * rstate) :=
  _ <- passert (String.eqb (e_tag ev) "INIT") ;;
  ten <- dict_get (e_attr ev) "ten" ;; scores <- ints ten ;;
  oya <- dict_get (e_attr ev) "oya" ;; parent <- py_int oya ;;
  pi <- py_index 4 parent ;;
  seed <- dict_get (e_attr ev) "seed" ;; sd <- ints seed ;;
  match sd with
  | [curr_round; honba; kyotaku; _; _; dora] =>
    let rounds_remaining := n_rounds go - curr_round in
    let ri := round_info go curr_round in
    his <- mapM (fun p => h <- dict_get (e_attr ev) (hai_key p) ;; ints h) (seq 0 4) ;;
    '(hts, povs, rem) <- deal_all his REMAINING_TILES ;;
    di <- tile2idx dora ;;
    let rem := vadds rem di (-1) in
    let povs := map_rows povs (fun v => vadds v di (-1)) in
    hands <- fill_hands his ;;
    _ <- passert (forallb (fun h => vsum h =? 13) hands) ;;
    _ <- passert (fold_right Z.max 0 (List.concat hands) =? 1) ;;
    _ <- passert (vsum (firstn 34 rem) =? 83) ;;
    Ok (MkEnv honba (vset (repeat 0 4) pi 1) rounds_remaining
              (map (fun i => (rounds_remaining + i) / 4) (zrange 4)) (ri_player_wind ri) (ri_round_wind ri),
        MkState hands hts hts rem povs (repeat (repeat 0 37) 4) REMAINING_TSUMO [dora] scores kyotaku
                (repeat 0 4) (repeat 0 4) (repeat 0 4) (repeat 1 4) (repeat [] 4)
                false 0 None None [] [])
  | _ => Err ValueError (* too many / not enough values to unpack *)
  end.

(** ** Marking decisions as executed *)

(** 143-146: the first riichi decision *)
Definition exec_first (l : list decision) : list decision :=
  match l with [] => [] | d :: r => set_executed d :: r end.
(** 179-186, 192-200: the first candidate whose normalised code is [conv].  Every
    member of these lists is a NakiDecision (the assertions at 180, 193). *)
Definition matches (conv : Z) (d : decision) : bool :=
  match d with NakiDecision _ nk _ => nk_conv nk =? conv | _ => false end.
Fixpoint exec_match (conv : Z) (l : list decision) : list decision :=
  match l with
  | [] => []
  | d :: r => if matches conv d then set_executed d :: r else d :: exec_match conv r
  end.

(** isinstance(curr_halfturn, DuringTurn / PostTurn), and the update of that object *)
Definition cur_during (s : rstate) : bool :=
  s_cur s && match s_half s with DuringTurn _ _ _ _ :: _ => true | _ => false end.
Definition cur_post (s : rstate) : bool :=
  s_cur s && match s_half s with PostTurn _ _ _ _ :: _ => true | _ => false end.
Definition upd_during (f : list (list decision) -> list (list decision)) (l : list (halfturn sobj)) :=
  match l with DuringTurn p so ds e :: r => DuringTurn p so (f ds) e :: r | _ => l end.
Definition upd_post (f : list (list (list decision)) -> list (list (list decision))) (l : list (halfturn sobj)) :=
  match l with PostTurn p so ds e :: r => PostTurn p so (f ds) e :: r | _ => l end.

(** ** The event loop, process_xml.py:122-513 *)

Definition ntokens (s : rstate) : Z := Z.of_nat (List.length (s_tokens s)).
Definition add_token (t : Z) (s : rstate) : rstate := set_tokens (s_tokens s ++ [t]) s.
Definition add_half (h : halfturn sobj) (s : rstate) : rstate := set_half (h :: s_half s) s.

(** 125-133 *)
Definition dora_step (s : rstate) (tile : Z) : res rstate :=
  ti <- tile2idx tile ;;
  let k := hd 0%nat ti in
  tok <- new_dora2idx (Z.of_nat k) ;;
  Ok (add_token tok (set_rtsumo (s_rtsumo s - 1)
       (set_pov (map_rows (s_pov s) (fun v => vadd v k (-1)))
       (set_rem (vadd (s_rem s) k (-1))
       (set_doras (s_doras s ++ [tile]) s))))).

(** 139-146, 160-161 *)
Definition reach1_step (s : rstate) (player : Z) : res rstate :=
  _ <- passert (cur_during s) ;;
  _ <- passert (match s_acquired s with Some _ => true | None => false end) ;;
  let s := set_half (upd_during (fun ds => upd ds DECISION_REACH_IDX exec_first) (s_half s)) s in
  ip <- pset (s_ippatsu s) player 1 ;;
  Ok (set_ippatsu ip s).

(** 148-161 *)
Definition reach2_step (s : rstate) (player : Z) : res rstate :=
  _ <- passert (cur_post s) ;;
  re <- pset (s_reaches s) player 1 ;;
  let s := set_kyotaku (s_kyotaku s + 1) (set_reaches re s) in
  sc <- padd (s_scores s) player (-10) ;;
  let s := set_scores sc s in
  dr <- (if (s_cycles s <=? 4) && all_set (s_menzen s) then pset (s_dreaches s) player 1 else Ok (s_dreaches s)) ;;
  let s := set_dreaches dr s in
  tok <- reach2idx player ;;
  let s := add_token tok s in
  ip <- pset (s_ippatsu s) player 1 ;;
  Ok (set_ippatsu ip s).

(** 215-218: one exposed tile leaves the concealed hand *)
Definition expose_tile (p : nat) (s : rstate) (e : Z) : res rstate :=
  k <- py_index 136 e ;;
  _ <- passert (vget (row (s_hands s) p) k =? 1) ;;
  ti <- tile2idx e ;;
  Ok (set_ht (upd_row (s_ht s) p (fun v => vadds v ti (-1)))
     (set_hands (upd_row (s_hands s) p (fun v => vadd v k (-1))) s)).

(** 253-258: drop the pon that the added kan extends *)
Fixpoint drop_pon (t : Z) (l : list naki) : list naki :=
  match l with
  | [] => []
  | m :: r => if is_pon (nk_code m) &&
                 (p_color (pattern_pon (nk_code m)) * 9 + p_number (pattern_pon (nk_code m)) =? t)
              then r else m :: drop_pon t r
  end.

Definition dec_lists (rons : list (option decision)) (nakis : nat -> list decision) : list (list (list decision)) :=
  map (fun p => [match nth p rons None with Some d => [d] | None => [] end; []; nakis p]) (seq 0 4).

(** 164-305.  [nk] and [player] are the parsed attributes. *)
Definition naki_step (L : libs) (n : renv) (s : rstate) (nk : naki) (player : Z) : res rstate :=
  let c := nk_code nk in
  let s := set_cycles (s_cycles s + (player - from_who c) mod 4) s in
  p <- py_index 4 player ;;
  let s := set_melds (upd (s_melds s) p (fun l => l ++ [nk])) s in
  tok <- naki2idx player c ;;
  let s := add_token tok s in
  s <- (if is_ankan c || is_kakan c then
          _ <- passert (cur_during s) ;;
          Ok (set_half (upd_during (fun ds => upd ds DECISION_NAKI_IDX (exec_match (nk_conv nk))) (s_half s)) s)
        else
          _ <- passert (cur_post s) ;;
          Ok (set_half (upd_post (fun ds => map (fun l => upd l DECISION_NAKI_IDX (exec_match (nk_conv nk))) ds) (s_half s)) s)) ;;
  let s := if negb (is_chi c) && negb (is_pon c) then set_rtsumo (s_rtsumo s - 1) s else s in
  '(exposed, acq) <- get_exposed c ;;
  eidx <- mapM tile2idx exposed ;;
  let s := set_pov (map_others (s_pov s) p (fun v => vadds v (List.concat eidx) (-1))) s in
  s <- foldM (expose_tile p) s exposed ;;
  s <- (match acq with
        | None => Ok s
        | Some a => ti <- tile2idx a ;; Ok (set_htf (upd_row (s_htf s) p (fun v => vadds v ti 1)) s)
        end) ;;
  let so := capture n p s in
  let s := set_sobj (Some so) s in
  let s := if negb (from_who c =? 0) then set_menzen (vset (s_menzen s) p 0) s else s in
  let s := if any_set (s_ippatsu s) then set_ippatsu (repeat 0 4) s else s in
  s <- (if is_kakan c then
          match exposed with
          | [] => Err IndexError
          | e0 :: _ =>
            let s := set_melds (upd (s_melds s) p (drop_pon (e0 / 4))) s in
            '(htf, rons) <- evaluate_ron (l_agari L) (args_of n s) player (s_htf s) (s_melds s) (s_sute s) e0 true false false ;;
            Ok (add_half (PostTurn player so (dec_lists rons (fun _ => [])) (ntokens s)) (set_htf htf s))
          end
        else Ok s) ;;
  let s := set_acquired acq (set_cur false s) in
  Ok (if is_minkan c || is_ankan c || is_kakan c then set_acquired None (set_cycles (s_cycles s + 1) s) else s).

(** 361-364: np.where(hand == 4.0) *)
Definition ankan_candidates (p : nat) (h : list Z) : res (list decision) :=
  mapM (fun i => nk <- from_ankan_info i ;; Ok (NakiDecision (Z.of_nat p) nk false))
       (filter (fun i => hget h i =? 4) (zrange 37)).
(** 367-379 *)
Definition kakan_candidates (p : nat) (hand136 : list Z) (melds : list naki) : res (list decision) :=
  ds <- mapM (fun m =>
          if is_pon (nk_code m) then
            let pat := pattern_pon (nk_code m) in
            let t := 9 * p_color pat + p_number pat in
            k <- py_index 136 t ;;
            if vget hand136 k =? 1 then nk <- from_kakan_info t 0 ;; Ok [NakiDecision (Z.of_nat p) nk false]
            else Ok []
          else Ok []) melds ;;
  Ok (List.concat ds).

(** 350-356 *)
Definition reach_candidates (L : libs) (p : nat) (s : rstate) : res (list decision) :=
  if negb (truthy (vget (s_reaches s) p)) && truthy (vget (s_menzen s) p) then
    sh <- l_shanten L (firstn 34 (row (s_ht s) p)) ;;
    Ok (if sh <=? 0 then [ReachDecision (Z.of_nat p) false] else [])
  else Ok [].

(** 308-327: the bookkeeping of a draw *)
Definition draw_tile (s : rstate) (p : nat) (tile : Z) : res rstate :=
  _ <- passert (match s_acquired s with None => true | Some _ => false end) ;;
  ti <- tile2idx tile ;;
  k <- py_index 136 tile ;;
  let s := set_acquired (Some tile) (set_cycles (s_cycles s + 1) (set_cur false s)) in
  let s := set_rtsumo (s_rtsumo s - 1)
          (set_pov (upd_row (s_pov s) p (fun v => vadds v ti (-1)))
          (set_rem (vadds (s_rem s) ti (-1)) s)) in
  _ <- passert (vget (row (s_hands s) p) k =? 0) ;;
  let s := set_htf (upd_row (s_htf s) p (fun v => vadds v ti 1))
          (set_ht (upd_row (s_ht s) p (fun v => vadds v ti 1))
          (set_hands (upd_row (s_hands s) p (fun v => vset v k 1)) s)) in
  _ <- passert (vsum (firstn 34 (row (s_ht s) p)) mod 3 =? 2) ;;
  Ok (if truthy (vget (s_ippatsu s) p) then set_ippatsu (vset (s_ippatsu s) p 0) s else s).

(** 307-419 *)
Definition draw_step (L : libs) (n : renv) (s : rstate) (p : nat) (tile : Z) : res rstate :=
  s <- draw_tile s p tile ;;
  agari <- evaluate_tsumo (l_agari L) (args_of n s) p (s_htf s) (s_melds s) tile (s_rtsumo s =? 0) false
             (s_cycles s =? 1) ((2 <=? s_cycles s) && (s_cycles s <=? 4) && all_set (s_menzen s)) ;;
  reach <- reach_candidates L p s ;;
  ankans <- ankan_candidates p (row (s_ht s) p) ;;
  kakans <- kakan_candidates p (row (s_hands s) p) (row (s_melds s) p) ;;
  let so := capture n p s in
  let s := add_half (DuringTurn (Z.of_nat p) so [agari; reach; ankans ++ kakans] (ntokens s)) (set_sobj (Some so) s) in
  let s := set_cur true s in
  Ok (if any_set (s_ippatsu s) then set_ippatsu (repeat 0 4) s else s).

(** 422-506.  [p] is the discarder. *)
Definition discard_step (L : libs) (n : renv) (s : rstate) (p : nat) (tile : Z) : res rstate :=
  acq <- (match s_acquired s with Some a => Ok a | None => Err AssertionError end) ;;
  _ <- passert (negb (s_cur s) || cur_during s) ;;
  let s := set_cur false s in
  ti <- tile2idx tile ;;
  k <- py_index 136 tile ;;
  _ <- passert (vget (row (s_hands s) p) k =? 1) ;;
  so <- (match s_sobj s with Some so => Ok so | None => Err UnboundLocalError end) ;;
  let s := add_half (DiscardTurn (Z.of_nat p) so tile (ntokens s)) s in
  let s := set_htf (upd_row (s_htf s) p (fun v => vadds v ti (-1)))
          (set_ht (upd_row (s_ht s) p (fun v => vadds v ti (-1)))
          (set_hands (upd_row (s_hands s) p (fun v => vset v k 0)) s)) in
  _ <- passert (vsum (firstn 34 (row (s_ht s) p)) mod 3 =? 1) ;;
  let s := set_sute (upd_row (s_sute s) p (fun v => vsets v ti 1)) s in
  let s := set_pov (upd_row (map_rows (s_pov s) (fun v => vadds v ti (-1))) p (fun v => vadds v ti 1)) s in
  '(htf, rons) <- evaluate_ron (l_agari L) (args_of n s) (Z.of_nat p) (s_htf s) (s_melds s) (s_sute s) tile false
              (s_rtsumo s =? 0)
              ((s_cycles s <=? 3) && (s_cycles s <=? Z.of_nat p) && all_set (s_menzen s)) ;;
  let s := set_htf htf s in
  nakis <- decision_mask (Z.of_nat p) (s_ht s) (Z.of_nat (hd 0%nat ti)) (Nat.eqb (List.length ti) 2) ;;
  _ <- passert (match nth p nakis [] with [] => true | _ => false end) ;;
  let post := dec_lists rons (fun q => if Nat.eqb q p then [] else nth q nakis []) in
  let s := set_cur true (add_half (PostTurn (Z.of_nat p) so post (ntokens s)) s) in
  tok <- discard2idx (Z.of_nat p) (Z.of_nat (hd 0%nat ti)) (tile =? acq) ;;
  Ok (set_acquired None (add_token tok s)).

(** ["T","U","V","W"].index(c) *)
Definition draw_seat (c : ascii) : option nat :=
  if Ascii.eqb c "T" then Some 0%nat else if Ascii.eqb c "U" then Some 1%nat
  else if Ascii.eqb c "V" then Some 2%nat else if Ascii.eqb c "W" then Some 3%nat else None.
Definition discard_seat (c : ascii) : option nat :=
  if Ascii.eqb c "D" then Some 0%nat else if Ascii.eqb c "E" then Some 1%nat
  else if Ascii.eqb c "F" then Some 2%nat else if Ascii.eqb c "G" then Some 3%nat else None.

Definition is_result (ev : event) : bool := String.eqb (e_tag ev) "AGARI" || String.eqb (e_tag ev) "RYUUKYOKU".

(** One iteration of the loop body for an event that is not a result
    (the results, 508-510, leave the loop: see [run_events]). *)
Definition step (L : libs) (n : renv) (s : rstate) (ev : event) : res rstate :=
  if String.eqb (e_tag ev) "DORA" then
    h <- dict_get (e_attr ev) "hai" ;; tile <- py_int h ;; dora_step s tile
  else if String.eqb (e_tag ev) "REACH" then
    _ <- passert (s_cur s) ;;
    w <- dict_get (e_attr ev) "who" ;; player <- py_int w ;;
    st <- dict_get (e_attr ev) "step" ;;
    if String.eqb st "1" then reach1_step s player else reach2_step s player
  else if String.eqb (e_tag ev) "N" then
    _ <- passert (s_cur s) ;;
    m <- dict_get (e_attr ev) "m" ;; code <- py_int m ;; nk <- mk_naki code ;;
    w <- dict_get (e_attr ev) "who" ;; player <- py_int w ;;
    naki_step L n s nk player
  else match e_tag ev with
  | EmptyString => Err IndexError
  | String c rest =>
    match draw_seat c with
    | Some p =>
        _ <- passert (match s_acquired s with None => true | Some _ => false end) ;;
        tile <- py_int rest ;; draw_step L n s p tile
    | None =>
      match discard_seat c with
      | Some p =>
        _ <- passert (match s_acquired s with None => false | Some _ => true end) ;;
        _ <- passert (negb (s_cur s) || cur_during s) ;;
        tile <- py_int rest ;; discard_step L n s p tile
      | None => Err ValueError
      end
    end
  end.

(** The loop: the final variables and the events from the first result on.  If the
    round has no result event, result_idx is None and kyoku_events[None:] (515) is
    the whole round. *)
Fixpoint run_events (L : libs) (n : renv) (s : rstate) (evs : list event) : res (rstate * option (list event)) :=
  match evs with
  | [] => Ok (s, None)
  | ev :: r => if is_result ev then Ok (s, Some evs) else s' <- step L n s ev ;; run_events L n s' r
  end.

(** 518-530: the results must be AGARI / RYUUKYOKU with an integer list "sc" *)
Definition check_result (ev : event) : res unit :=
  _ <- passert (is_result ev) ;;
  sc <- dict_get (e_attr ev) "sc" ;; _ <- ints sc ;; Ok tt.

Definition no_negative (l : list Z) : bool := forallb (fun r => negb (r <? 0)) l.

(** 46-542 for one round: its half-turns, oldest first, as seen after the round
    (so the aliased fields show their final contents), and its tokens. *)
Definition map_half {A B} (f : A -> B) (h : halfturn A) : halfturn B :=
  match h with
  | DuringTurn p so ds e => DuringTurn p (f so) ds e
  | DiscardTurn p so t e => DiscardTurn p (f so) t e
  | PostTurn p so ds e => PostTurn p (f so) ds e
  end.

Definition process_round (L : libs) (go : Z) (evs : list event) : res (list (halfturn sview) * list Z) :=
  match evs with
  | [] => Err IndexError
  | e0 :: r =>
    '(n, s0) <- init_round go e0 ;;
    '(s, results) <- run_events L n s0 r ;;
    _ <- mapM check_result (match results with Some l => l | None => evs end) ;;
    _ <- passert (no_negative (s_rem s)) ;;
    _ <- passert (forallb no_negative (s_pov s)) ;;
    Ok (map (map_half (observe s)) (rev (s_half s)), s_tokens s)
  end.

(** ** Splitting the log, process_xml.py:547-591 *)

(** An ElementTree element. *)
Inductive elem := Elem (tag : string) (attr : attrs) (children : list elem).
Definition el_tag (e : elem) := match e with Elem t _ _ => t end.
Definition el_attr (e : elem) := match e with Elem _ a _ => a end.
Definition el_children (e : elem) := match e with Elem _ _ c => c end.

(** 554-558 *)
Fixpoint traverse (e : elem) : list event :=
  match e with Elem t a cs => MkEvent t a :: flat_map traverse cs end.

Definition skipped_tag (t : string) : bool :=
  existsb (String.eqb t) ["mjloggm"; "SHUFFLE"; "UN"; "GO"; "TAIKYOKU"]%string.

(** 572-589.  [cur] is curr_round_events. *)
Fixpoint group (evs : list event) (cur : option (list event)) : res (list (list event)) :=
  match evs with
  | [] => Ok (match cur with None => [] | Some l => [l] end)
  | ev :: r =>
    if skipped_tag (e_tag ev) then group r cur
    else if String.eqb (e_tag ev) "BYE" then Err InvalidGameException
    else if String.eqb (e_tag ev) "INIT" then
      rs <- group r (Some [ev]) ;;
      Ok (match cur with None => rs | Some l => l :: rs end)
    else match cur with
         | None => Err AttributeError
         | Some l => group r (Some (l ++ [ev]))
         end
  end.

(** 547-591 on a parsed tree (opening and parsing the file is not modelled) *)
Definition get_rounds (root : elem) : res (Z * list (list event)) :=
  let gos := filter (fun e => String.eqb (el_tag e) "GO") (el_children root) in
  match gos with
  | [g] =>
    go <- match dict_get (el_attr g) "type" with
          | Ok t => match py_int t with Ok z => Ok z | Err _ => Err ValueError end
          | Err _ => Err ValueError
          end ;;
    rs <- group (traverse root) None ;;
    Ok (go, rs)
  | _ => Err ValueError
  end.

(** 31-41, 46, 541-544 *)
Definition process (L : libs) (root : elem) : res (list (list (halfturn sview)) * list (list Z)) :=
  '(go, rounds) <- get_rounds root ;;
  _ <- (if against_human go =? 1 then Ok tt else Err InvalidGameException) ;;
  _ <- (if no_red go =? 1 then Err InvalidGameException else Ok tt) ;;
  _ <- (if kansaki go =? 1 then Err InvalidGameException else Ok tt) ;;
  _ <- (if three_players go =? 1 then Err InvalidGameException else Ok tt) ;;
  rs <- mapM (process_round L go) rounds ;;
  Ok (map fst rs, map snd rs).
