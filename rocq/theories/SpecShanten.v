(** Specification vocabulary for the shanten theorems: which tile collections are
    complete hands.  Independent of the solver. *)
From Coq Require Import ZArith List Bool Permutation.
Import ListNotations.
Open Scope Z_scope.

(** A set is three equal tiles or three consecutive tiles of one suit; types 0-26
    are the suits (nine each), 27-33 the honours. *)
Inductive mset := Triplet (i : nat) | Run (i : nat).

Definition legal (m : mset) : Prop :=
  match m with
  | Triplet i => (i < 34)%nat
  | Run i => (i < 27)%nat /\ (Nat.modulo i 9 <= 6)%nat
  end.

(** How many tiles of type [t] a set uses *)
Definition uses (m : mset) (t : nat) : Z :=
  match m with
  | Triplet i => if Nat.eqb t i then 3 else 0
  | Run i => if Nat.leb i t && Nat.leb t (i + 2) then 1 else 0
  end.

Definition uses_all (l : list mset) (t : nat) : Z := fold_right (fun m a => uses m t + a) 0 l.

(** [n] sets and one pair, using exactly the tiles of [h] *)
Definition standard_win (h : list Z) (n : nat) : Prop :=
  exists sets pair, length sets = n /\ Forall legal sets /\ (pair < 34)%nat /\
    forall t, (t < 34)%nat ->
      nth t h 0 = uses_all sets t + (if Nat.eqb t pair then 2 else 0).

(** Seven different pairs *)
Definition seven_pairs (h : list Z) : Prop :=
  (forall t, (t < 34)%nat -> nth t h 0 = 0 \/ nth t h 0 = 2) /\
  exists l, NoDup l /\ length l = 7%nat /\ forall t, In t l -> (t < 34)%nat /\ nth t h 0 = 2.

(** Terminals and honours *)
Definition orphans : list nat := [0; 8; 9; 17; 18; 26; 27; 28; 29; 30; 31; 32; 33]%nat.

Definition thirteen_orphans (h : list Z) : Prop :=
  exists d, In d orphans /\
    forall t, (t < 34)%nat ->
      nth t h 0 = (if existsb (Nat.eqb t) orphans then 1 else 0) + (if Nat.eqb t d then 1 else 0).

(** A vector of 37 counts, at most four of each of the 34 types and no red markers *)
Definition plain_hand (h : list Z) : Prop :=
  length h = 37%nat /\ (forall t, (t < 34)%nat -> 0 <= nth t h 0 <= 4) /\
  (forall t, (34 <= t)%nat -> nth t h 0 = 0).

Definition total (h : list Z) : Z := fold_right Z.add 0 h.

(** The same hand with the suits and the honours renamed (C103).  A vector of counts is the
    three suits of nine types, the seven honours and the three red-five markers. *)
Definition renamed (h h' : list Z) : Prop :=
  exists suits suits' honours honours' reds,
    h = concat suits ++ honours ++ reds /\ h' = concat suits' ++ honours' ++ reds /\
    length suits = 3%nat /\ Forall (fun s => length s = 9%nat) suits /\ length honours = 7%nat /\ length reds = 3%nat /\
    Permutation suits suits' /\ Permutation honours honours'.
(** The hand in the mirror (C104): one becomes nine, two becomes eight, ... in every suit. *)
Definition mirrored (h h' : list Z) : Prop :=
  exists s0 s1 s2 rest, h = s0 ++ s1 ++ s2 ++ rest /\ h' = rev s0 ++ rev s1 ++ rev s2 ++ rest /\
    length s0 = 9%nat /\ length s1 = 9%nat /\ length s2 = 9%nat /\ length rest = 10%nat.
(** [h'] is [h] and one more tile of type [t] (C105, C106). *)
Definition drawn (h : list Z) (t : nat) (h' : list Z) : Prop :=
  length h' = length h /\ forall k, nth k h' 0 = nth k h 0 + (if Nat.eqb k t then 1 else 0).
