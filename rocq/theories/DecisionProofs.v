(** Lemmas about decision_mask.  The candidates offered to one player depend on
    the hand only through eight booleans; [mask_abs] makes that explicit, which
    turns statements about all hands into finitely many cases. *)
From Coq Require Import ZArith List Bool Lia.
From Verif Require Import Base Naki Decision SpecMeld NakiProofs NakiLemmas NakiLemmas2.
Import ListNotations.
Open Scope Z_scope.

(** ** Abstraction of the mask to booleans *)
Definition chi1 color number which red : res (list naki) :=
  nk <- from_chi_info color number which red ;; _ <- passert (is_chi (nk_code nk)) ;; Ok [nk].
Definition chi1n color number which red : res (list naki) :=
  nk <- from_chi_info color number which red ;; Ok [nk].
Definition pon1 tile which red from : res (list naki) :=
  nk <- from_pon_info tile which red from ;; _ <- passert (is_pon (nk_code nk)) ;; Ok [nk].
Definition minkan1 tile from which : res (list naki) :=
  nk <- from_minkan_info tile from which ;; _ <- passert (is_minkan (nk_code nk)) ;; Ok [nk].
Definition whenN (b : bool) (m : res (list naki)) : res (list naki) := if b then m else Ok [].
Definition appN (m1 m2 : res (list naki)) : res (list naki) := a <- m1 ;; b <- m2 ;; Ok (a ++ b).

(** What the mask looks at: holds t-2 and t-1 / t-1 and t+1 / t+1 and t+2, holds
    the red five of the suit, has exactly two / three copies of t, and two tests on
    the "black fives" number. *)
Record view := MkView {
  v_next : bool; v_seat : Z;
  v_low : bool; v_mid : bool; v_high : bool; v_red : bool;
  v_two : bool; v_three : bool; v_bpos : bool; v_b2 : bool }.

Definition view_of (player p : Z) (h : list Z) (t : Z) : view :=
  let red := 0 <? hget h (34 + t / 9) in
  MkView ((p - player) mod 4 =? 1) ((player - p) mod 4)
    (both h (t - 2) (t - 1)) (both h (t - 1) (t + 1)) (both h (t + 1) (t + 2)) red
    (hget h t =? 2) (hget h t =? 3) (0 <? hget h t - b2z red) (hget h t - b2z red =? 2).

Definition pm (v : view) t :=
  appN (whenN (v_two v) (pon1 t 0 false (v_seat v))) (whenN (v_three v) (minkan1 t (v_seat v) 0)).

Definition mask_abs (t : Z) (is_red : bool) (v : view) : res (list naki) :=
  let s := t / 9 in
  if 26 <? t then pm v t
  else if t mod 9 =? 0 then appN (whenN (v_next v && v_high v) (chi1 s 0 0 false)) (pm v t)
  else if t mod 9 =? 8 then appN (whenN (v_next v && v_low v) (chi1 s 6 2 false)) (pm v t)
  else if t mod 9 =? 1 then
    appN (whenN (v_next v) (appN (whenN (v_mid v) (chi1 s 0 1 false)) (whenN (v_high v) (chi1 s 1 0 false)))) (pm v t)
  else if t mod 9 =? 7 then
    appN (whenN (v_next v) (appN (whenN (v_mid v) (chi1 s 6 1 false)) (whenN (v_low v) (chi1 s 5 2 false)))) (pm v t)
  else if t mod 9 =? 2 then
    appN (whenN (v_next v) (appN (whenN (v_low v) (chi1 s 0 2 false)) (appN (whenN (v_mid v) (chi1n s 1 1 false))
      (whenN (v_high v) (if v_red v then appN (chi1 s 2 0 true) (whenN (v_bpos v) (chi1 s 2 0 false)) else chi1 s 2 0 false)))))
      (pm v t)
  else if t mod 9 =? 6 then
    appN (whenN (v_next v) (appN (whenN (v_high v) (chi1 s 6 0 false)) (appN (whenN (v_mid v) (chi1n s 5 1 false))
      (whenN (v_low v) (if v_red v then appN (chi1 s 4 2 true) (whenN (v_bpos v) (chi1 s 4 2 false)) else chi1 s 4 2 false)))))
      (pm v t)
  else if t mod 9 =? 3 then
    appN (whenN (v_next v) (appN (whenN (v_low v) (chi1 s 1 2 false))
      (appN (whenN (v_mid v) (if v_red v then appN (chi1 s 2 0 true) (whenN (v_bpos v) (chi1 s 2 0 false)) else chi1 s 2 1 false))
            (whenN (v_high v) (if v_red v then appN (chi1 s 3 0 true) (whenN (v_bpos v) (chi1 s 3 0 false)) else chi1 s 3 0 false)))))
      (pm v t)
  else if t mod 9 =? 5 then
    appN (whenN (v_next v) (appN (whenN (v_high v) (chi1 s 5 0 false))
      (appN (whenN (v_mid v) (if v_red v then appN (chi1 s 4 2 true) (whenN (v_bpos v) (chi1 s 4 2 false)) else chi1 s 4 1 false))
            (whenN (v_low v) (if v_red v then appN (chi1 s 3 2 true) (whenN (v_bpos v) (chi1 s 3 2 false)) else chi1 s 3 2 false)))))
      (pm v t)
  else
    appN (whenN (v_next v) (appN (whenN (v_low v) (chi1 s 2 2 is_red)) (appN (whenN (v_mid v) (chi1 s 3 1 is_red))
      (whenN (v_high v) (chi1 s 4 0 is_red)))))
    (appN (if v_red v then appN (whenN (v_two v) (pon1 t 1 true (v_seat v))) (whenN (v_b2 v) (pon1 t 0 false (v_seat v)))
           else whenN (v_two v) (pon1 t (if is_red then 1 else 0) is_red (v_seat v)))
          (whenN (v_three v) (minkan1 t (v_seat v) (if is_red then 1 else 0)))).

Definition lift (p : Z) (m : res (list naki)) : res (list decision) :=
  match m with Ok l => Ok (map (fun nk => NakiDecision p nk false) l) | Err e => Err e end.

Lemma lift_app p a b : lift p (appN a b) = appM (lift p a) (lift p b).
Proof. destruct a, b; cbn; try reflexivity. now rewrite map_app. Qed.
Lemma lift_when p b m : lift p (whenN b m) = when b (lift p m).
Proof. destruct b; reflexivity. Qed.
Lemma lift_if (c : bool) p a b : lift p (if c then a else b) = if c then lift p a else lift p b.
Proof. now destruct c. Qed.
Lemma lift_chi p a b c d : lift p (chi1 a b c d) = chi_cand p a b c d.
Proof. unfold chi1, chi_cand, bind. destruct (from_chi_info a b c d); [|reflexivity]. destruct (passert _); reflexivity. Qed.
Lemma lift_chin p a b c d : lift p (chi1n a b c d) = chi_cand_noassert p a b c d.
Proof. unfold chi1n, chi_cand_noassert, bind. destruct (from_chi_info a b c d); reflexivity. Qed.
Lemma lift_pon p a b c d : lift p (pon1 a b c d) = pon_cand p a b c d.
Proof. unfold pon1, pon_cand, bind. destruct (from_pon_info a b c d); [|reflexivity]. destruct (passert _); reflexivity. Qed.
Lemma lift_minkan p a b c : lift p (minkan1 a b c) = minkan_cand p a b c.
Proof. unfold minkan1, minkan_cand, bind. destruct (from_minkan_info a b c); [|reflexivity]. destruct (passert _); reflexivity. Qed.

Lemma both_comm h i j : both h i j = both h j i.
Proof. unfold both. now rewrite Z.mul_comm. Qed.

Lemma when_and a b m : when (a && b) m = when a (when b m).
Proof. destruct a, b; reflexivity. Qed.

Ltac push_lift :=
  repeat first [ rewrite lift_app | rewrite lift_when | rewrite lift_if | rewrite lift_chi
               | rewrite lift_chin | rewrite lift_pon | rewrite lift_minkan ].

Lemma mask_abs_ok player t is_red p h :
  mask_for player t is_red p h = lift p (mask_abs t is_red (view_of player p h t)).
Proof.
  unfold mask_abs, mask_for, view_of, pm.
  destruct (26 <? t).
  { unfold jihai, pon_minkan. cbn [v_two v_three v_seat].
    push_lift. reflexivity. }
  cbn [v_two v_three v_seat v_next v_low v_mid v_high v_red v_bpos v_b2].
  destruct (t mod 9 =? 0) eqn:E0.
  { cbn [orb]. unfold one_and_nine, pon_minkan.
    push_lift.
    replace (t + 1 * 2) with (t + 2) by lia. reflexivity. }
  destruct (t mod 9 =? 8) eqn:E8.
  { cbn [orb]. unfold one_and_nine, pon_minkan.
    push_lift.
    replace (t + -1 * 2) with (t - 2) by lia. replace (t + -1) with (t - 1) by lia.
    rewrite (both_comm h (t - 1) (t - 2)). reflexivity. }
  destruct (t mod 9 =? 1) eqn:E1.
  { cbn [orb]. unfold two_and_eight, pon_minkan.
    push_lift.
    replace (t + 1 * 2) with (t + 2) by lia. reflexivity. }
  destruct (t mod 9 =? 7) eqn:E7.
  { cbn [orb]. unfold two_and_eight, pon_minkan.
    push_lift.
    replace (t + -1 * 2) with (t - 2) by lia. replace (t + -1) with (t - 1) by lia.
    rewrite (both_comm h (t - 1) (t - 2)). reflexivity. }
  destruct (t mod 9 =? 2) eqn:E2.
  { cbn [orb]. unfold three_and_seven, pon_minkan.
    push_lift.
    replace (t - 2 * 1) with (t - 2) by lia. replace (t + 2 * 1) with (t + 2) by lia. reflexivity. }
  destruct (t mod 9 =? 6) eqn:E6.
  { cbn [orb]. unfold three_and_seven, pon_minkan.
    push_lift.
    replace (t - 2 * -1) with (t + 2) by lia. replace (t - -1) with (t + 1) by lia.
    replace (t + 2 * -1) with (t - 2) by lia. replace (t + -1) with (t - 1) by lia.
    rewrite (both_comm h (t + 2) (t + 1)), (both_comm h (t - 1) (t - 2)). reflexivity. }
  destruct (t mod 9 =? 3) eqn:E3.
  { cbn [orb]. unfold four_and_six, pon_minkan.
    push_lift.
    replace (t - 2 * 1) with (t - 2) by lia. replace (t + 2 * 1) with (t + 2) by lia. reflexivity. }
  destruct (t mod 9 =? 5) eqn:E5.
  { cbn [orb]. unfold four_and_six, pon_minkan.
    push_lift.
    replace (t - 2 * -1) with (t + 2) by lia. replace (t - -1) with (t + 1) by lia.
    replace (t + 2 * -1) with (t - 2) by lia. replace (t + -1) with (t - 1) by lia.
    rewrite (both_comm h (t + 2) (t + 1)), (both_comm h (t - 1) (t - 2)). reflexivity. }
  cbn [orb]. unfold five.
  push_lift. reflexivity.
Qed.

(** ** Exhaustive checking over the abstraction *)
(** The four combinations of the tests on the number of copies held. *)
Definition all_copies (red : bool) (P : bool -> bool -> bool -> bool -> bool) : bool :=
  P false false false false && P false false true false && P true false true (negb red) && P false true true red.
Lemma all_copies_ok P n red : all_copies red P = true ->
  P (n =? 2) (n =? 3) (0 <? n - b2z red) (n - b2z red =? 2) = true.
Proof.
  unfold all_copies. intros H. apply andb_prop in H as [H H4]. apply andb_prop in H as [H H3].
  apply andb_prop in H as [H1 H2].
  destruct (Z.eqb_spec n 2) as [->|N2]; [destruct red; exact H3|].
  destruct (Z.eqb_spec n 3) as [->|N3]; [destruct red; exact H4|].
  assert (E : (n - b2z red =? 2) = false) by (destruct red; cbn [b2z]; apply Z.eqb_neq; lia).
  rewrite E. destruct (0 <? n - b2z red); assumption.
Qed.

Definition all_view (P : view -> bool) : bool :=
  all_z 3 (fun s => all_b (fun b1 => all_b (fun b2 => all_b (fun b3 => all_b (fun b4 =>
  all_copies b4 (fun b5 b6 b7 b8 =>
    P (MkView (s + 1 =? 3) (s + 1) b1 b2 b3 b4 b5 b6 b7 b8))))))).
Definition all_cases (P : Z -> bool -> view -> bool) : bool :=
  all_z 34 (fun t => all_b (fun r => all_view (P t r))).

Lemma all_cases_ok P : all_cases P = true ->
  forall t r player p h, 0 <= t < 34 -> 0 <= player < 4 -> 0 <= p < 4 -> p <> player ->
  P t r (view_of player p h t) = true.
Proof.
  intros H t r player p h Ht Hpl Hp Hne.
  pose proof (all_z_ok _ _ H t Ht) as H1. pose proof (all_b_ok _ H1 r) as H2.
  unfold all_view in H2.
  pose proof (Z.mod_pos_bound (player - p) 4 ltac:(lia)) as B.
  assert (N : (player - p) mod 4 <> 0).
  { intros E. apply Z.mod_divide in E; [|lia]. destruct E as [k E]. lia. }
  pose proof (all_z_ok _ _ H2 ((player - p) mod 4 - 1) ltac:(cbn; lia)) as H3. cbv beta in H3.
  replace ((player - p) mod 4 - 1 + 1) with ((player - p) mod 4) in H3 by lia.
  assert (E : ((player - p) mod 4 =? 3) = ((p - player) mod 4 =? 1)).
  { assert (C : (p = 0 \/ p = 1 \/ p = 2 \/ p = 3) /\ (player = 0 \/ player = 1 \/ player = 2 \/ player = 3)) by lia.
    destruct C as [[-> | [-> | [-> | ->]]] [-> | [-> | [-> | ->]]]]; reflexivity. }
  rewrite E in H3. unfold view_of.
  pose proof (all_b_ok _ H3 (both h (t - 2) (t - 1))) as H4. clear H3. cbv beta in H4.
  pose proof (all_b_ok _ H4 (both h (t - 1) (t + 1))) as H5. clear H4. cbv beta in H5.
  pose proof (all_b_ok _ H5 (both h (t + 1) (t + 2))) as H6. clear H5. cbv beta in H6.
  pose proof (all_b_ok _ H6 (0 <? hget h (34 + t / 9))) as H7. clear H6. cbv beta in H7.
  exact (all_copies_ok _ (hget h t) _ H7).
Qed.
