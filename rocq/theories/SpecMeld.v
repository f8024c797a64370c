(** Specification vocabulary for melds, independent of draw.py.

    Tiles are numbered 0..135; four consecutive ids share a tile type
    (0-8 manzu, 9-17 pinzu, 18-26 souzu, 27-33 honours).  The red fives are the
    ids 16, 52 and 88.  A meld code is a tenhou "m" attribute: bits 0-1 give the
    seat the tile was taken from (0 = nobody), bit 2 marks a chi, bit 3 a pon,
    bit 4 an added kan, and a kan claimed from somebody / closed kan has bits
    2-5 all clear. *)
From Coq Require Import ZArith List Bool.
Import ListNotations.
Open Scope Z_scope.

(** [id // 4] (lemma tile_type_div). *)
Definition tile_type (id : Z) : Z := Z.shiftr id 2.
Lemma tile_type_div id : tile_type id = id / 4.
Proof. apply Z.shiftr_div_pow2. discriminate. Qed.
Definition valid_id (id : Z) : Prop := 0 <= id < 136.
Definition red_five (id : Z) : Prop := id = 16 \/ id = 52 \/ id = 88.
(** Tile types that have a red copy. *)
Definition five_type (t : Z) : Prop := t = 4 \/ t = 13 \/ t = 22.

Definition red_fiveb (id : Z) : bool := (id =? 16) || (id =? 52) || (id =? 88).
Definition has_red_five (tiles : list Z) : bool := existsb red_fiveb tiles.
Definition five_typeb (t : Z) : bool := (t =? 4) || (t =? 13) || (t =? 22).

Inductive kind := Chi | Pon | Kakan | Minkan | Ankan.

(** [w] bits of [c] starting at bit [lo] (lemma field_div). *)
Definition field (c lo w : Z) : Z := Z.land (Z.shiftr c lo) (Z.ones w).
Lemma field_div c lo w : 0 <= lo -> 0 <= w -> field c lo w = (c / 2 ^ lo) mod 2 ^ w.
Proof. intros. unfold field. now rewrite Z.land_ones, Z.shiftr_div_pow2. Qed.

Definition spec_kind (c : Z) : option kind :=
  if field c 2 1 =? 1 then Some Chi
  else if field c 3 1 =? 1 then Some Pon
  else if field c 4 1 =? 1 then Some Kakan
  else if field c 2 4 =? 0 then
    if field c 0 2 =? 0 then Some Ankan else Some Minkan
  else None.

(** The pattern field of a code is within the range a real meld uses (and a pon
    code does not carry the added-kan bit as well). *)
Definition in_range (c : Z) : Prop :=
  match spec_kind c with
  | Some Chi => field c 10 6 < 63
  | Some Pon => field c 4 1 = 0 /\ field c 9 7 < 102
  | Some Kakan => field c 9 7 < 102
  | Some Minkan | Some Ankan => field c 8 8 < 136
  | None => False
  end.

(** All tiles of a call: the exposed ones and the claimed one, if any. *)
Definition all_tiles (exposed : list Z) (acquired : option Z) : list Z :=
  match acquired with Some a => a :: exposed | None => exposed end.

(** A physically possible meld of the given kind. *)
Definition possible_meld (k : kind) (exposed : list Z) (acquired : option Z) : Prop :=
  let tiles := all_tiles exposed acquired in
  NoDup tiles /\ Forall valid_id tiles /\
  match k with
  | Chi => acquired <> None /\ length tiles = 3%nat /\
           exists s n, 0 <= s < 3 /\ 0 <= n < 7 /\
             forall t, In t (map tile_type tiles) <-> t = 9 * s + n \/ t = 9 * s + n + 1 \/ t = 9 * s + n + 2
  | Pon => acquired <> None /\ length tiles = 3%nat /\
           exists t, 0 <= t < 34 /\ Forall (fun x => tile_type x = t) tiles
  | Kakan => acquired = None /\ length tiles = 1%nat /\
           exists t, 0 <= t < 34 /\ Forall (fun x => tile_type x = t) tiles
  | Minkan => acquired <> None /\ length tiles = 4%nat /\
           exists t, 0 <= t < 34 /\ Forall (fun x => tile_type x = t) tiles
  | Ankan => acquired = None /\ length tiles = 4%nat /\
           exists t, 0 <= t < 34 /\ Forall (fun x => tile_type x = t) tiles
  end.

(** Put the claimed tile back at its position in the run. *)
Definition insert_at (w : nat) (a : Z) (l : list Z) : list Z := firstn w l ++ a :: skipn w l.

(** Which of the two groups of tiles of a call contains the red five. *)
Definition red_signature (exposed : list Z) (acquired : option Z) : bool * bool :=
  (has_red_five exposed, match acquired with Some a => red_fiveb a | None => false end).

(** Bits that no meld of the kind uses are clear. *)
Definition unused_clear (c : Z) : Prop :=
  0 <= c < 65536 /\
  match spec_kind c with
  | Some Chi => field c 9 1 = 0
  | Some Pon => field c 4 1 = 0 /\ field c 7 2 = 0
  | Some Kakan => field c 7 2 = 0
  | Some Minkan | Some Ankan => field c 6 2 = 0
  | None => False
  end.

(** The claimed tile's place among the three tiles, lowest first. *)
Definition claim_place (exposed : list Z) (a : Z) : Z := Z.of_nat (length (filter (fun x => x <? a) exposed)).

(** A reaction to a discard, as far as its action index can tell: for a chi the lowest tile
    type, the claimed place and whether the red five comes from the hand; for a pon the tile
    type and whether it has an index of its own (the red five is exposed or claimed and the
    claimed tile is the highest copy, id 3 mod 4); for an open kan the tile type. *)
Inductive reaction := RChi (low place : Z) (red_in_hand : bool) | RPon (t : Z) (high_red : bool) | RKan (t : Z).
Inductive reads_as (k : kind) (exposed : list Z) (a : Z) : reaction -> Prop :=
| ra_chi low : k = Chi -> insert_at (Z.to_nat (claim_place exposed a)) (tile_type a) (map tile_type exposed) = [low; low + 1; low + 2] ->
    reads_as k exposed a (RChi low (claim_place exposed a) (has_red_five exposed))
| ra_pon : k = Pon -> reads_as k exposed a (RPon (tile_type a) (has_red_five (a :: exposed) && (a mod 4 =? 3)))
| ra_kan : k = Minkan -> reads_as k exposed a (RKan (tile_type a)).
(** The different reactions that share an action index: 5-6-7 with the red five in the hand
    on the 6 and on the 7 (any suit); these and the same suit order's next suit 3-4-5 on the
    3; and some souzu runs with pons of manzu. *)
Inductive same_slot : reaction -> reaction -> Prop :=
| ss_567 low : low = 4 \/ low = 13 \/ low = 22 -> same_slot (RChi low 1 true) (RChi low 2 true)
| ss_345 low place : low = 4 \/ low = 13 -> place = 1 \/ place = 2 -> same_slot (RChi low place true) (RChi (low + 7) 0 true)
| ss_pon1 : same_slot (RChi 21 0 true) (RPon 0 false)
| ss_pon2 : same_slot (RChi 21 2 true) (RPon 1 false)
| ss_pon4 place : place = 1 \/ place = 2 -> same_slot (RChi 22 place true) (RPon 3 false).
