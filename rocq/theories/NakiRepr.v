(** Model of the printed form of a call: draw.py:268-280 (Naki.__repr__). *)
From Coq Require Import ZArith List Bool String.
From Verif Require Import Base Naki Train.
Open Scope Z_scope.

(** An integer in an f-string. *)
Definition zdec (z : Z) : string := if z <? 0 then ("-" ++ dec (Z.to_nat (- z)))%string else dec (Z.to_nat z).

(** draw.py:268-280 *)
Definition naki_repr (c : Z) : res string :=
  if is_chi c then i <- get_post_turn_filter_idx c ;; Ok ("Chi: " ++ zdec i)%string
  else if is_pon c then i <- get_post_turn_filter_idx c ;; Ok ("Pon: " ++ zdec i)%string
  else if is_kakan c then i <- get_during_turn_filter_idx c ;; Ok ("Kakan: " ++ zdec i)%string
  else if is_minkan c then i <- get_post_turn_filter_idx c ;; Ok ("Minkan: " ++ zdec i)%string
  else if is_ankan c then i <- get_during_turn_filter_idx c ;; Ok ("Ankan: " ++ zdec i)%string
  else Ok "Invalid naki code"%string.
