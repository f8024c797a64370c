(** Model of MahjongAI/decision.py. *)
From Coq Require Import ZArith List Bool.
From Verif Require Import Base Naki.
Import ListNotations.
Open Scope Z_scope.

(** decision.py:6-48.  PassDecision is never constructed by the code. *)
Inductive decision : Type :=
| NakiDecision (player : Z) (nk : naki) (executed : bool)
| ReachDecision (player : Z) (executed : bool)
| AgariDecision (player : Z) (executed : bool).

Definition d_player (d : decision) : Z :=
  match d with NakiDecision p _ _ | ReachDecision p _ | AgariDecision p _ => p end.
Definition d_executed (d : decision) : bool :=
  match d with NakiDecision _ _ e | ReachDecision _ e | AgariDecision _ e => e end.
Definition set_executed (d : decision) : decision :=
  match d with
  | NakiDecision p n _ => NakiDecision p n true
  | ReachDecision p _ => ReachDecision p true
  | AgariDecision p _ => AgariDecision p true
  end.

(** [hand_tensor[i]] with a non-negative index *)
Definition hget (h : list Z) (i : Z) : Z := vget h (Z.to_nat i).
(** truthiness of a product of two counts *)
Definition both (h : list Z) (i j : Z) : bool := negb (hget h i * hget h j =? 0).

(** "naki = Naki.from_chi_info(...); assert naki.is_chi(); decisions[p].append(...)" *)
Definition chi_cand (p color number which : Z) (red : bool) : res (list decision) :=
  nk <- from_chi_info color number which red ;;
  _ <- passert (is_chi (nk_code nk)) ;;
  Ok [NakiDecision p nk false].
(** the same without the assertion (decision.py:157-158) *)
Definition chi_cand_noassert (p color number which : Z) (red : bool) : res (list decision) :=
  nk <- from_chi_info color number which red ;;
  Ok [NakiDecision p nk false].
Definition pon_cand (p tile which : Z) (red : bool) (from : Z) : res (list decision) :=
  nk <- from_pon_info tile which red from ;;
  _ <- passert (is_pon (nk_code nk)) ;;
  Ok [NakiDecision p nk false].
Definition minkan_cand (p tile from which : Z) : res (list decision) :=
  nk <- from_minkan_info tile from which ;;
  _ <- passert (is_minkan (nk_code nk)) ;;
  Ok [NakiDecision p nk false].

(** [if b: ...append] *)
Definition when (b : bool) (m : res (list decision)) : res (list decision) :=
  if b then m else Ok [].
Definition appM (m1 m2 : res (list decision)) : res (list decision) :=
  a <- m1 ;; b <- m2 ;; Ok (a ++ b).

(** The pon and minkan blocks shared verbatim by the masks for non-fives
    (decision.py:86-93, 120-128, 182-190, 260-268, 334-341). *)
Definition pon_minkan (player p : Z) (h : list Z) (t : Z) : res (list decision) :=
  appM (when (hget h t =? 2) (pon_cand p t 0 false ((player - p) mod 4)))
       (when (hget h t =? 3) (minkan_cand p t ((player - p) mod 4) 0)).

(** decision.py:68-95, body of the loop for a player [p <> player] *)
Definition one_and_nine (player p : Z) (h : list Z) (t : Z) (is_one : bool) : res (list decision) :=
  let coef := if is_one then 1 else -1 in
  appM (when (((p - player) mod 4 =? 1) && both h (t + coef) (t + coef * 2))
          (chi_cand p (t / 9) (if is_one then 0 else 6) (if is_one then 0 else 2) false))
       (pon_minkan player p h t).

(** decision.py:98-130 *)
Definition two_and_eight (player p : Z) (h : list Z) (t : Z) (is_two : bool) : res (list decision) :=
  let coef := if is_two then 1 else -1 in
  appM (when ((p - player) mod 4 =? 1)
          (appM (when (both h (t - 1) (t + 1)) (chi_cand p (t / 9) (if is_two then 0 else 6) 1 false))
                (when (both h (t + coef) (t + coef * 2))
                   (chi_cand p (t / 9) (if is_two then 1 else 5) (if is_two then 0 else 2) false))))
       (pon_minkan player p h t).

(** decision.py:133-192 *)
Definition three_and_seven (player p : Z) (h : list Z) (t : Z) (is_three : bool) : res (list decision) :=
  let coef := if is_three then 1 else -1 in
  let has_red := 0 <? hget h (34 + t / 9) in
  let black_fives := hget h t - b2z has_red in
  appM (when ((p - player) mod 4 =? 1)
          (appM (when (both h (t - 2 * coef) (t - coef))
                   (chi_cand p (t / 9) (if is_three then 0 else 6) (if is_three then 2 else 0) false))
          (appM (when (both h (t - 1) (t + 1))
                   (chi_cand_noassert p (t / 9) (if is_three then 1 else 5) 1 false))
                (when (both h (t + coef) (t + 2 * coef))
                   (if has_red then
                      appM (chi_cand p (t / 9) (if is_three then 2 else 4) (if is_three then 0 else 2) true)
                           (when (0 <? black_fives)
                              (chi_cand p (t / 9) (if is_three then 2 else 4) (if is_three then 0 else 2) false))
                    else chi_cand p (t / 9) (if is_three then 2 else 4) (if is_three then 0 else 2) false)))))
       (pon_minkan player p h t).

(** decision.py:195-270 *)
Definition four_and_six (player p : Z) (h : list Z) (t : Z) (is_four : bool) : res (list decision) :=
  let coef := if is_four then 1 else -1 in
  let has_red := 0 <? hget h (34 + t / 9) in
  let black_fives := hget h t - b2z has_red in
  appM (when ((p - player) mod 4 =? 1)
          (appM (when (both h (t - 2 * coef) (t - coef))
                   (chi_cand p (t / 9) (if is_four then 1 else 5) (if is_four then 2 else 0) false))
          (appM (when (both h (t - 1) (t + 1))
                   (if has_red then
                      appM (chi_cand p (t / 9) (if is_four then 2 else 4) (if is_four then 0 else 2) true)
                           (when (0 <? black_fives)
                              (chi_cand p (t / 9) (if is_four then 2 else 4) (if is_four then 0 else 2) false))
                    else chi_cand p (t / 9) (if is_four then 2 else 4) 1 false))
                (when (both h (t + coef) (t + 2 * coef))
                   (if has_red then
                      appM (chi_cand p (t / 9) 3 (if is_four then 0 else 2) true)
                           (when (0 <? black_fives) (chi_cand p (t / 9) 3 (if is_four then 0 else 2) false))
                    else chi_cand p (t / 9) 3 (if is_four then 0 else 2) false)))))
       (pon_minkan player p h t).

(** decision.py:273-324 *)
Definition five (player p : Z) (h : list Z) (t : Z) (is_red : bool) : res (list decision) :=
  let has_red := 0 <? hget h (34 + t / 9) in
  let black_fives := hget h t - b2z has_red in
  appM (when ((p - player) mod 4 =? 1)
          (appM (when (both h (t - 2) (t - 1)) (chi_cand p (t / 9) 2 2 is_red))
          (appM (when (both h (t - 1) (t + 1)) (chi_cand p (t / 9) 3 1 is_red))
                (when (both h (t + 1) (t + 2)) (chi_cand p (t / 9) 4 0 is_red)))))
  (appM (if has_red then
           appM (when (hget h t =? 2) (pon_cand p t 1 true ((player - p) mod 4)))
                (when (black_fives =? 2) (pon_cand p t 0 false ((player - p) mod 4)))
         else
           when (hget h t =? 2)
             (pon_cand p t (if is_red then 1 else 0) is_red ((player - p) mod 4)))
        (when (hget h t =? 3) (minkan_cand p t ((player - p) mod 4) (if is_red then 1 else 0)))).

(** decision.py:327-343 *)
Definition jihai (player p : Z) (h : list Z) (t : Z) : res (list decision) := pon_minkan player p h t.

(** decision.py:51-65, for one player *)
Definition mask_for (player : Z) (t : Z) (is_red : bool) (p : Z) (h : list Z) : res (list decision) :=
  if 26 <? t then jihai player p h t
  else if (t mod 9 =? 0) || (t mod 9 =? 8) then one_and_nine player p h t (t mod 9 =? 0)
  else if (t mod 9 =? 1) || (t mod 9 =? 7) then two_and_eight player p h t (t mod 9 =? 1)
  else if (t mod 9 =? 2) || (t mod 9 =? 6) then three_and_seven player p h t (t mod 9 =? 2)
  else if (t mod 9 =? 3) || (t mod 9 =? 5) then four_and_six player p h t (t mod 9 =? 3)
  else five player p h t is_red.

(** decision.py:51-65 with the loop "for p, hand_tensor in enumerate(hand_tensors)"
    and "if p == player: continue" common to all masks. *)
Definition decision_mask (player : Z) (hands : list (list Z)) (t : Z) (is_red : bool)
  : res (list (list decision)) :=
  mapM (fun ph => if fst ph =? player then Ok [] else mask_for player t is_red (fst ph) (snd ph))
       (combine (zrange 4) hands).
