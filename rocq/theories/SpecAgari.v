(** Specification vocabulary for the win evaluators (C39-C42). *)
From Coq Require Import ZArith List Bool String Ascii Sorted.
From Verif Require Import Base Agari SpecMeld.
Import ListNotations.
Open Scope Z_scope.

(** The decimal digit [d] (1-9) as a character, and a text of digits. *)
Definition digit (d : Z) : ascii := ascii_of_N (48 + Z.to_N d).
Definition writes (l : list Z) (s : string) : Prop := s = string_of_list_ascii (map digit l).

(** [s] lists the tiles of [n] consecutive types starting with type [from] of hand [h]:
    ascending digits 1..n, digit j+1 as often as the hand has tiles of type from+j. *)
Definition lists_tiles (h : list Z) (from n : nat) (s : string) : Prop :=
  exists l, writes l s /\ StronglySorted Z.le l /\ Forall (fun d => 1 <= d <= Z.of_nat n) l /\
    forall j, (j < n)%nat -> count_occ Z.eq_dec l (Z.of_nat j + 1) = Z.to_nat (vget h (from + j)).

(** The library's name for a kind of meld. *)
Definition type_for (k : kind) : meld_type :=
  match k with Chi => M_CHI | Pon => M_PON | Kakan => M_SHOUMINKAN | Minkan | Ankan => M_KAN end.

(** Seat wind of player [p] in round number [r] (0 = East 1; the dealer is East = 0). *)
Definition seat_wind (r p : Z) : Z := (p - r) mod 4.
