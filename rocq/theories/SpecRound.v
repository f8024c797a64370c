(** Specification vocabulary for rounds: the play events of a log, and what they
    say about tiles, scores and flags, without reference to the event loop. *)
From Coq Require Import ZArith List Bool String Ascii Permutation.
From Verif Require Import Base Naki GameInfo Process SpecMeld SpecTokens.
Import ListNotations.
Open Scope Z_scope.

(** A play event of a log.  Players are 0-3. *)
Inductive play : Type :=
| PlDraw (who : Z) (tile : Z)
| PlDiscard (who : Z) (tile : Z)
| PlCall (who : Z) (code : Z)
| PlReach1 (who : Z)        (* riichi declared *)
| PlReach2 (who : Z)        (* riichi accepted, the stick is paid *)
| PlDora (tile : Z).        (* new indicator *)

Definition attr_int (ev : event) (key : string) : option Z :=
  match dict_get (e_attr ev) key with
  | Ok s => match py_int s with Ok z => Some z | Err _ => None end
  | Err _ => None
  end.

(** The log format: <DORA hai>, <REACH who step>, <N who m>, <T12/> ... draws by
    seats T U V W, <D12/> ... discards by seats D E F G. *)
Definition play_of (ev : event) : option play :=
  if String.eqb (e_tag ev) "DORA" then option_map PlDora (attr_int ev "hai")
  else if String.eqb (e_tag ev) "REACH" then
    match attr_int ev "who", dict_get (e_attr ev) "step" with
    | Some w, Ok st => Some (if String.eqb st "1" then PlReach1 w else PlReach2 w)
    | _, _ => None
    end
  else if String.eqb (e_tag ev) "N" then
    match attr_int ev "who", attr_int ev "m" with Some w, Some m => Some (PlCall w m) | _, _ => None end
  else match e_tag ev with
  | String c rest =>
    match py_int rest with
    | Ok t =>
      match draw_seat c, discard_seat c with
      | Some p, _ => Some (PlDraw (Z.of_nat p) t)
      | None, Some p => Some (PlDiscard (Z.of_nat p) t)
      | None, None => None
      end
    | Err _ => None
    end
  | EmptyString => None
  end.

(** Tile ids are 0-135.  (Python also accepts negative ids, counted from the end.) *)
Definition tid (t : Z) : Z := t mod 136.

(** The tiles dealt to player [p] by an INIT event. *)
Definition dealt (e0 : event) (p : nat) : list Z :=
  match dict_get (e_attr e0) (hai_key p) with
  | Ok s => match ints s with Ok l => map tid l | Err _ => [] end
  | Err _ => []
  end.
(** The six numbers of the INIT seed: round, honba, sticks, two dice, first indicator. *)
Definition seed_of (e0 : event) : list Z :=
  match dict_get (e_attr e0) "seed" with
  | Ok s => match ints s with Ok l => l | Err _ => [] end
  | Err _ => []
  end.
Definition first_indicator (e0 : event) : Z := tid (nth 5 (seed_of e0) 0).
Definition initial_sticks (e0 : event) : Z := nth 2 (seed_of e0) 0.
Definition initial_scores (e0 : event) : list Z :=
  match dict_get (e_attr e0) "ten" with
  | Ok s => match ints s with Ok l => l | Err _ => [] end
  | Err _ => []
  end.

(** Tiles moved by the events of a round. *)
Definition drawn (p : Z) (evs : list play) : list Z :=
  flat_map (fun e => match e with PlDraw q t => if q =? p then [tid t] else [] | _ => [] end) evs.
Definition discarded (p : Z) (evs : list play) : list Z :=
  flat_map (fun e => match e with PlDiscard q t => if q =? p then [tid t] else [] | _ => [] end) evs.
(** tiles a call takes out of the caller's concealed hand *)
Definition shown_by (code : Z) : list Z := match get_exposed code with Ok (ex, _) => ex | Err _ => [] end.
(** the tile a call takes from another player *)
Definition claimed_by (code : Z) : list Z :=
  match get_exposed code with Ok (_, Some a) => [a] | _ => [] end.
Definition shown (p : Z) (evs : list play) : list Z :=
  flat_map (fun e => match e with PlCall q c => if q =? p then map tid (shown_by c) else [] | _ => [] end) evs.
Definition claimed (p : Z) (evs : list play) : list Z :=
  flat_map (fun e => match e with PlCall q c => if q =? p then map tid (claimed_by c) else [] | _ => [] end) evs.
Definition indicators (evs : list play) : list Z :=
  flat_map (fun e => match e with PlDora t => [tid t] | _ => [] end) evs.

(** What player [p] sees of the others: their discards and the tiles of their calls. *)
Definition discards_of_others (p : Z) (evs : list play) : list Z :=
  flat_map (fun e => match e with PlDiscard q t => if q =? p then [] else [tid t] | _ => [] end) evs.
Definition shown_by_others (p : Z) (evs : list play) : list Z :=
  flat_map (fun e => match e with PlCall q c => if q =? p then [] else map tid (shown_by c) | _ => [] end) evs.

(** The same for all players together. *)
Definition all_dealt (e0 : event) : list Z := flat_map (dealt e0) (seq 0 4).
Definition all_drawn (evs : list play) : list Z :=
  flat_map (fun e => match e with PlDraw _ t => [tid t] | _ => [] end) evs.

(** The 37 count classes: 34 tile types, then the three red fives. *)
Definition in_class (k : nat) (x : Z) : bool :=
  if Nat.ltb k 34 then x / 4 =? Z.of_nat k
  else if Nat.eqb k 34 then x =? 16 else if Nat.eqb k 35 then x =? 52 else if Nat.eqb k 36 then x =? 88 else false.
(** how many tiles of a list are in class [k] *)
Definition num (k : nat) (l : list Z) : Z := Z.of_nat (List.length (filter (in_class k) l)).
(** how many tiles of class [k] exist: 4 of a type, 1 red five of a suit *)
Definition class_size (k : nat) : Z := if Nat.ltb k 34 then 4 else 1.

Definition seats : list Z := [0; 1; 2; 3].
Definition others (p : Z) : list Z := filter (fun q => negb (q =? p)) seats.

(** Number of riichi sticks paid by everyone. *)
Definition all_sticks (evs : list play) : Z :=
  Z.of_nat (List.length (filter (fun e => match e with PlReach2 _ => true | _ => false end) evs)).
(** [p] has claimed a tile of another player: a call whose source seat (the two lowest
    bits of the code: 0 for a closed kan, else 1-3) is not the caller. *)
Definition opened (p : Z) (evs : list play) : Prop :=
  exists c, In (PlCall p c) evs /\ c mod 4 <> 0.
(** Number of draws, of calls that are neither chi nor pon, of new indicators. *)
Definition draws (evs : list play) : Z :=
  Z.of_nat (List.length (filter (fun e => match e with PlDraw _ _ => true | _ => false end) evs)).
Definition kans (evs : list play) : Z :=
  Z.of_nat (List.length (filter (fun e => match e with PlCall _ c => negb (is_chi c) && negb (is_pon c) | _ => false end) evs)).
Definition new_doras (evs : list play) : Z :=
  Z.of_nat (List.length (filter (fun e => match e with PlDora _ => true | _ => false end) evs)).

(** Number of riichi sticks paid by [p]. *)
Definition sticks (p : Z) (evs : list play) : Z :=
  Z.of_nat (List.length (filter (fun e => match e with PlReach2 q => q =? p | _ => false end) evs)).

(** ** Runs: what the event loop has done after a number of events *)

(** [runs L go e0 evs n s pls]: starting from INIT event [e0], the loop has
    processed the events [evs] without raising; they are the plays [pls]. *)
Definition runs (L : libs) (go : Z) (e0 : event) (evs : list event) (n : renv) (s : rstate) (pls : list play) : Prop :=
  exists s0, init_round go e0 = Ok (n, s0) /\ foldM (step L n) s0 evs = Ok s /\
  map play_of evs = map Some pls.

(** The value of a flag list, vector or matrix for player [p] *)
Definition flag (l : list Z) (p : Z) : Z := vget l (Z.to_nat p).
Definition vec (m : list (list Z)) (p : Z) : list Z := row m (Z.to_nat p).

(** ** Logs *)

(** The game type of a log: the integer attribute "type" of the only GO child. *)
Definition log_type (root : elem) (go : Z) : Prop :=
  exists g t, filter (fun e => String.eqb (el_tag e) "GO") (el_children root) = [g] /\
    dict_get (el_attr g) "type" = Ok t /\ py_int t = Ok go.
(** Against humans (bit 0), red fives (bit 1 clear), no kansaki (bit 2 clear), four players (bit 4 clear). *)
Definition supported (go : Z) : Prop :=
  field go 0 1 = 1 /\ field go 1 1 = 0 /\ field go 2 1 = 0 /\ field go 4 1 = 0.
(** Tags that carry no round event. *)
Definition header_tag (t : string) : Prop :=
  t = "mjloggm"%string \/ t = "SHUFFLE"%string \/ t = "UN"%string \/ t = "GO"%string \/ t = "TAIKYOKU"%string.
(** A list of events that starts with its only INIT. *)
Definition one_round (r : list event) : Prop :=
  exists e0 rest, r = e0 :: rest /\ e_tag e0 = "INIT"%string /\ Forall (fun e => e_tag e <> "INIT"%string) rest.
Definition result_event (e : event) : Prop := e_tag e = "AGARI"%string \/ e_tag e = "RYUUKYOKU"%string.

(** ** Public events, half-turns *)

(** The public events among the plays.  [last] is the tile drawn or claimed last by
    the player to discard; a discard of exactly that tile is a tsumogiri. *)
Fixpoint public (last : option Z) (pls : list play) : list pub_event :=
  match pls with
  | [] => []
  | PlDraw _ t :: r => public (Some t) r
  | PlDiscard w t :: r => EvDiscard w (tid t / 4) (match last with Some a => t =? a | None => false end) :: public None r
  | PlCall w c :: r => EvCall w c :: public (if is_minkan c || is_ankan c || is_kakan c then None else hd_error (claimed_by c)) r
  | PlReach1 _ :: r => public last r
  | PlReach2 w :: r => EvRiichi w :: public last r
  | PlDora t :: r => EvDora (tid t / 4) :: public last r
  end.

(** The half-turns a list of plays produces: kind, player, discarded tile, encoding
    index.  [seen] is the number of public events so far. *)
Inductive shape := HDuring (who idx : Z) | HDiscard (who tile idx : Z) | HPost (who idx : Z).
Fixpoint shapes (seen : Z) (pls : list play) : list shape :=
  match pls with
  | [] => []
  | PlDraw w _ :: r => HDuring w seen :: shapes seen r
  | PlDiscard w t :: r => HDiscard w t seen :: HPost w seen :: shapes (seen + 1) r
  | PlCall w c :: r => if is_kakan c then HPost w (seen + 1) :: shapes (seen + 1) r else shapes (seen + 1) r
  | PlReach1 _ :: r => shapes seen r
  | PlReach2 _ :: r => shapes (seen + 1) r
  | PlDora _ :: r => shapes (seen + 1) r
  end.
Definition shape_of {A} (h : halfturn A) : shape :=
  match h with
  | DuringTurn p _ _ e => HDuring p e
  | DiscardTurn p _ t e => HDiscard p t e
  | PostTurn p _ _ e => HPost p e
  end.
Definition index_of {A} (h : halfturn A) : Z :=
  match h with DuringTurn _ _ _ e => e | DiscardTurn _ _ _ e => e | PostTurn _ _ _ e => e end.
Definition state_of {A} (h : halfturn A) : A :=
  match h with DuringTurn _ so _ _ => so | DiscardTurn _ so _ _ => so | PostTurn _ so _ _ => so end.
Definition half_player {A} (h : halfturn A) : Z :=
  match h with DuringTurn p _ _ _ => p | DiscardTurn p _ _ _ => p | PostTurn p _ _ _ => p end.

(** For each half-turn, how many plays had happened when its state object was built:
    up to and including the last draw or call.  [i]: plays so far, [last]: that number
    at the last draw or call. *)
Fixpoint moments (i last : nat) (pls : list play) : list nat :=
  match pls with
  | [] => []
  | PlDraw _ _ :: r => S i :: moments (S i) (S i) r
  | PlDiscard _ _ :: r => last :: last :: moments (S i) last r
  | PlCall _ c :: r => if is_kakan c then S i :: moments (S i) (S i) r else moments (S i) (S i) r
  | _ :: r => moments (S i) last r
  end.
