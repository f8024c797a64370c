(** Specification vocabulary for turns: whose turn it is, consistent seats, and what
    the scoring library is asked. *)
From Coq Require Import ZArith List Bool.
From Verif Require Import Base Naki Decision Agari Process SpecMeld SpecTokens SpecRound.
Import ListNotations.
Open Scope Z_scope.

(** The player who drew or called last ([cur] if nobody has). *)
Fixpoint turn (cur : Z) (pls : list play) : Z :=
  match pls with
  | [] => cur
  | PlDraw w _ :: r => turn w r
  | PlCall w _ :: r => turn w r
  | _ :: r => turn cur r
  end.

(** The seats in the log are consistent: a player discards, declares riichi or makes a
    closed or added kan on their own turn, and other calls come from another player and
    name the discarder in their two lowest bits. *)
Fixpoint in_turn (cur : Z) (pls : list play) : Prop :=
  match pls with
  | [] => True
  | PlDraw w _ :: r => in_turn w r
  | PlDiscard w _ :: r => w = cur /\ in_turn cur r
  | PlCall w c :: r =>
      (if is_ankan c || is_kakan c then w = cur else w <> cur /\ (w + c mod 4) mod 4 = cur) /\ in_turn w r
  | PlReach1 w :: r => w = cur /\ in_turn cur r
  | PlReach2 w :: r => w = cur /\ in_turn cur r
  | PlDora _ :: r => in_turn cur r
  end.
(** No player has the turn before the first draw. *)
Definition consistent (pls : list play) : Prop := in_turn (-1) pls.

(** Number of calls of any kind. *)
Definition calls (pls : list play) : Z :=
  Z.of_nat (length (filter (fun e => match e with PlCall _ _ => true | _ => false end) pls)).

(** The decision list of a win evaluation that answered [b] for player [p]. *)
Definition win_if (b : bool) (p : Z) : list decision := if b then [AgariDecision p false] else [].

(** [p] has discarded a tile of the type of tile [t]. *)
Definition furiten (p t : Z) (pls : list play) : Prop := exists x, In x (discarded p pls) /\ x / 4 = tid t / 4.

(** ** Queries to the scoring library *)

(** With variables [s], the half-turn recorded last is the one of a draw by [w], and its
    win decisions are the answer of library [L] to the query [q]. *)
Definition tsumo_asks (L : libs) (s : rstate) (w : Z) (q : query) : Prop :=
  exists b so ds i r, l_agari L q = Ok b /\ s_half s = DuringTurn w so (win_if b w :: ds) i :: r.
(** The half-turn recorded last is the one after a discard or added kan by [w], and the win
    decisions of player [p] in it are the answer to the query [q] / there are none. *)
Definition ron_asks (L : libs) (s : rstate) (w p : Z) (q : query) : Prop :=
  exists b so ds lists i r, l_agari L q = Ok b /\ s_half s = PostTurn w so ds i :: r /\ nth (Z.to_nat p) ds [] = win_if b p :: lists.
Definition no_ron (s : rstate) (w p : Z) : Prop :=
  exists so ds lists i r, s_half s = PostTurn w so ds i :: r /\ nth (Z.to_nat p) ds [] = [] :: lists.

(** The query is about player [p] with variables [s]: melds, indicators, riichi flags and
    the common data of the round. *)
Definition asks_about (n : renv) (s : rstate) (p : Z) (q : query) : Prop :=
  mapM (fun nk => lib_meld_of (nk_code nk)) (row (s_melds s) (Z.to_nat p)) = Ok (q_melds q) /\
  q_doras q = s_doras s /\ q_riichi q = truthy (flag (s_reaches s) p) /\ q_daburu q = truthy (flag (s_dreaches s) p) /\
  q_player_wind q = n_player_wind n /\ q_round_wind q = n_round_wind n /\ q_kyotaku q = s_kyotaku s /\ q_honba q = n_honba n.
(** The hand of the query is the count vector [h]. *)
Definition asks_hand (h : list Z) (q : query) : Prop := (q_man q, q_pin q, q_sou q, q_honors q) = hand_tensor2strs h.

(** No player has claimed a tile of another player. *)
Definition never_opened (pls : list play) : Prop := forall p, 0 <= p < 4 -> ~ opened p pls.

(** The step count the special-win rules go by: one per draw, one per kan of any kind,
    and for every call the seat number of the caller less the two lowest bits of the
    code, modulo 4. *)
Definition is_any_kan (c : Z) : bool := is_minkan c || is_ankan c || is_kakan c.
Definition play_steps (a : play) : Z :=
  match a with
  | PlDraw _ _ => 1
  | PlCall w c => (w - c mod 4) mod 4 + (if is_any_kan c then 1 else 0)
  | _ => 0
  end.
Definition steps (pls : list play) : Z := fold_right (fun a n => play_steps a + n) 0 pls.
