(** Completeness of the search for hands that are one tile short of complete. *)
From Coq Require Import ZArith List Bool Lia Arith Permutation.
From Verif Require Import Base Constants VecLemmas Shanten SpecShanten ShantenSearch ShantenLemmas.
Import ListNotations.
Open Scope Z_scope.

(** What is left over beside sets and pairs: nothing, a single tile, or two tiles of a run *)
Inductive piece := Nothing | One (i : nat) | Gap (i : nat) | Side (i : nat).
Definition piece_ok (q : piece) : Prop :=
  match q with
  | Nothing => True
  | One i => (i < 27)%nat
  | Gap i => (i < 27)%nat /\ (Nat.modulo i 9 <= 6)%nat
  | Side i => (i < 27)%nat /\ (Nat.modulo i 9 <= 7)%nat
  end.
Definition at_tile (i t : nat) : Z := if Nat.eqb t i then 1 else 0.
Definition piece_uses (q : piece) (t : nat) : Z :=
  match q with
  | Nothing => 0
  | One i => at_tile i t
  | Gap i => at_tile i t + at_tile (i + 2) t
  | Side i => at_tile i t + at_tile (i + 1) t
  end.
(** How many pairs go with it *)
Definition goes_with (q : piece) (ps : list nat) : Prop :=
  match q with
  | Nothing => NoDup ps
  | One _ => ps = []
  | _ => (length ps <= 1)%nat
  end.

Definition from (j : nat) (h : list Z) (t : nat) : Z := if Nat.ltb t j then 0 else vget h t.

Definition Conf (f : nat -> Z) (l : list mset) (ps : list nat) (q : piece) : Prop :=
  Forall legal27 l /\ Forall (fun p => (p < 27)%nat) ps /\ piece_ok q /\ goes_with q ps /\
  forall t, (t < 27)%nat -> f t = uses_all l t + two ps t + piece_uses q t.

(** What the counters of a leaf add up to: sets, pairs, parts *)
Definition ends (l : list mset) (ps : list nat) (q : piece) (m p a : Z) : Prop :=
  let n := Z.of_nat (length l) in let k := Z.of_nat (length ps) in
  match q with
  | Nothing => m = n /\ p = k /\ a = 0
  | One _ => m = n /\ p = 0 /\ a = 0 \/ m = n - 1 /\ p = 2 /\ a = 0
  | _ => m = n /\ p = k /\ a = 1 \/ m = n /\ p = k + 1 /\ a = 0 \/ k = 1 /\ m = n + 1 /\ p = 0 /\ a = 0
  end.
Definition finds (idx : nat) (s : sv) (l : list mset) (ps : list nat) (q : piece) : Prop :=
  exists s' m p a, Reach idx s s' /\ sv_mentsu s' = sv_mentsu s + m /\ sv_toitsu s' = sv_toitsu s + p /\
    sv_taatsu s' = sv_taatsu s + a /\ sv_tune s' = sv_tune s /\ ends l ps q m p a.

Lemma at_nonneg i t : 0 <= at_tile i t. Proof. unfold at_tile. destruct (Nat.eqb t i); lia. Qed.
Lemma piece_nonneg q t : 0 <= piece_uses q t.
Proof. destruct q as [|i|i|i]; cbn [piece_uses]; unfold at_tile; repeat match goal with |- context [Nat.eqb ?a ?b] => destruct (Nat.eqb a b) end; lia. Qed.

(** The sets that contain the first tile *)
Lemma sets_at i l : Forall legal27 l -> (forall t, (t < i)%nat -> uses_all l t = 0) ->
  exists a b r, Permutation l (repeat (Triplet i) a ++ repeat (Run i) b ++ r) /\ uses_all r i = 0.
Proof.
  induction 1 as [|m l M _ IH]; intros Z0; [exists O, O, []; split; [constructor|reflexivity]|].
  assert (Zl : forall t, (t < i)%nat -> uses_all l t = 0).
  { intros t T. specialize (Z0 t T). rewrite uses_all_cons in Z0. pose proof (uses_nonneg m t). pose proof (uses_all_nonneg l t). lia. }
  destruct (IH Zl) as (a & b & r & P & U).
  assert (Zm : forall t, (t < i)%nat -> uses m t = 0).
  { intros t T. specialize (Z0 t T). rewrite uses_all_cons, Zl in Z0 by exact T. lia. }
  assert (Q : m = Triplet i \/ m = Run i \/ uses m i = 0).
  { destruct m as [k|k]; cbn [uses] in *.
    - destruct (Nat.eqb_spec i k) as [->|]; auto.
    - destruct (Nat.eq_dec k i) as [->|N]; [auto|]. right; right. destruct (Nat.leb_spec k i) as [K|K]; [|reflexivity].
      specialize (Zm k ltac:(lia)). rewrite Nat.leb_refl, (proj2 (Nat.leb_le k (k + 2))) in Zm by lia. discriminate Zm. }
  destruct Q as [->|[->|Q]].
  - exists (S a), b, r. split; [|exact U]. cbn [repeat app]. now constructor.
  - exists a, (S b), r. split; [|exact U]. etransitivity; [apply perm_skip, P|]. cbn [repeat app]. apply Permutation_middle.
  - exists a, b, (m :: r). split; [|rewrite uses_all_cons; lia]. etransitivity; [apply perm_skip, P|].
    rewrite !app_assoc. apply Permutation_middle.
Qed.

Lemma conf_perm f l l' ps q : Permutation l l' -> Conf f l ps q -> Conf f l' ps q.
Proof.
  intros P (A & B & C & D & E). split; [|repeat (split; [assumption|])].
  - apply Forall_forall. intros m M. apply (proj1 (Forall_forall _ _) A). eapply Permutation_in; [apply Permutation_sym; exact P|exact M].
  - intros t T. rewrite (E t T), (uses_all_perm _ _ t P). reflexivity.
Qed.
Lemma finds_perm idx s l l' ps q : Permutation l l' -> finds idx s l' ps q -> finds idx s l ps q.
Proof.
  intros P (s' & m & p & a & R & A & B & C & D & E). exists s', m, p, a. repeat (split; [assumption|]).
  unfold ends in *. now rewrite (Permutation_length P).
Qed.

Ltac tiles := repeat match goal with |- context [Nat.eqb ?a ?b] => destruct (Nat.eqb_spec a b) | |- context [Nat.leb ?a ?b] => destruct (Nat.leb_spec a b) | |- context [Nat.ltb ?a ?b] => destruct (Nat.ltb_spec a b) end.

(** Replacing three equal runs, or two runs and a left-over, by triplets *)
Lemma conf_runs3 f i r ps q : Conf f (Run i :: Run i :: Run i :: r) ps q ->
  Conf f (Triplet i :: Triplet (i + 1) :: Triplet (i + 2) :: r) ps q.
Proof.
  intros (A & B & C & D & E). pose proof (Forall_inv A) as [A1 A2]. pose proof (run_fits i A1 A2).
  pose proof (Forall_inv_tail (Forall_inv_tail (Forall_inv_tail A))) as A5.
  split; [|repeat (split; [assumption|])].
  - do 3 (apply Forall_cons; [cbn [legal27]; lia|]). exact A5.
  - intros t T. rewrite (E t T), runs3. reflexivity.
Qed.

Lemma two_cons p ps t : two (p :: ps) t = (if Nat.eqb t p then 2 else 0) + two ps t. Proof. reflexivity. Qed.
Lemma two_perm ps ps' t : Permutation ps ps' -> two ps t = two ps' t.
Proof. unfold two. induction 1; cbn [fold_right]; lia. Qed.
Lemma pair_at ps i : two ps i <> 0 -> exists ps', Permutation ps (i :: ps').
Proof.
  induction ps as [|p ps IH]; [intros H; now destruct H|]. rewrite two_cons. destruct (Nat.eqb_spec i p) as [->|N].
  - intros _. now exists ps.
  - intros H. destruct IH as (ps' & P); [lia|]. exists (p :: ps'). etransitivity; [apply perm_skip, P|]. apply perm_swap.
Qed.
Lemma conf_pairs f l ps ps' q : Permutation ps ps' -> Conf f l ps q -> Conf f l ps' q.
Proof.
  intros P (A & B & C & D & E). split; [exact A|]. split; [|split; [exact C|split]].
  - apply Forall_forall. intros m M. apply (proj1 (Forall_forall _ _) B). eapply Permutation_in; [apply Permutation_sym; exact P|exact M].
  - destruct q; cbn [goes_with] in *; [eapply Permutation_NoDup; eassumption| |now rewrite <- (Permutation_length P)|now rewrite <- (Permutation_length P)].
    subst ps. now apply Permutation_nil in P.
  - intros t T. now rewrite (E t T), (two_perm _ _ t P).
Qed.
Lemma finds_pairs idx s l ps ps' q : Permutation ps ps' -> finds idx s l ps' q -> finds idx s l ps q.
Proof.
  intros P (s' & m & p & a & R & A & B & C & D & E). exists s', m, p, a. repeat (split; [assumption|]).
  unfold ends in *. now rewrite (Permutation_length P).
Qed.
Lemma finds_as idx s l ps q l' ps' q' : (forall m p a, ends l ps q m p a -> ends l' ps' q' m p a) -> finds idx s l ps q -> finds idx s l' ps' q'.
Proof. intros H (s' & m & p & a & R & A & B & C & D & E). exists s', m, p, a. repeat (split; [assumption|]). now apply H. Qed.
Lemma piece_at q i : piece_uses q i <> 0 -> (forall t, (t < i)%nat -> piece_uses q t = 0) -> piece_uses q i = 1 /\ (q = One i \/ q = Gap i \/ q = Side i).
Proof.
  intros H Z0. destruct q as [|k|k|k]; cbn [piece_uses] in *; [now destruct H| | |];
  (destruct (Nat.lt_ge_cases k i) as [K|K];
   [specialize (Z0 k K); unfold at_tile in Z0; rewrite Nat.eqb_refl in Z0; repeat match goal with H : context [Nat.eqb ?a ?b] |- _ => destruct (Nat.eqb a b) end; discriminate Z0|]);
  unfold at_tile in *; repeat match goal with H : context [Nat.eqb ?a ?b] |- _ => destruct (Nat.eqb_spec a b) end; subst; try lia;
  (split; [tiles; lia|]); auto.
Qed.

Lemma in_ps_gap i tune s : (Nat.modulo i 9 <= 6)%nat -> vget (sv_hand s) (i + 2) <> 0 -> In (add_taatsu i 1 s) (ps_branches i tune s).
Proof.
  intros M B. unfold ps_branches. apply in_or_app. left. unfold truthy. rewrite (proj2 (Nat.ltb_lt _ _)) by lia. rewrite (proj2 (Z.eqb_neq _ _) B). cbn [andb negb].
  apply in_or_app. right. now left.
Qed.
Lemma in_ps_side i tune s : (Nat.modulo i 9 <= 7)%nat -> vget (sv_hand s) (i + 1) <> 0 -> In (add_taatsu i 2 s) (ps_branches i tune s).
Proof.
  intros M B. unfold ps_branches. apply in_or_app. right. unfold truthy. rewrite (proj2 (Nat.ltb_lt _ _)) by lia. rewrite (proj2 (Z.eqb_neq _ _) B). cbn [andb negb].
  apply in_or_app. left. now left.
Qed.
Lemma in_ps_one i tune s : In (add_kuttsuki i tune s) (ps_branches i tune s).
Proof. unfold ps_branches. apply in_or_app. right. apply in_or_app. right. now left. Qed.
Lemma side_fits i : (i < 27)%nat -> (Nat.modulo i 9 <= 7)%nat -> (i + 1 < 27)%nat.
Proof. intros A B. do 27 (destruct i as [|i]; [cbn in *; lia|]). lia. Qed.
Lemma len_kou i s : length (sv_hand s) = 37%nat -> length (sv_hand (add_koutsu i s)) = 37%nat.
Proof. intros L. cbn [sv_hand add_koutsu]. now rewrite length_vadd. Qed.
Lemma len_toi i s : length (sv_hand s) = 37%nat -> length (sv_hand (add_toitsu i s)) = 37%nat.
Proof. intros L. cbn [sv_hand add_toitsu]. now rewrite length_vadd. Qed.
Lemma short_nodup (ps : list nat) : (length ps <= 1)%nat -> NoDup ps.
Proof. destruct ps as [|p [|? ?]]; cbn; intros H; try lia; constructor; [intros []|constructor]. Qed.

Ltac child U1 U2 U3 E := 
  let t := fresh "t" in let T := fresh "T" in
  intros t T; specialize (E t T); specialize (U1 t); specialize (U2 t); specialize (U3 t); unfold from in *;
  rewrite ?hand_run, ?hand_taatsu1, ?hand_taatsu2, ?hand_kuttsuki, ?hand_koutsu, ?hand_toitsu by (try apply len_kou; try apply len_toi; assumption);
  rewrite ?uses_all_cons, ?two_cons in *; cbn [uses piece_uses two fold_right] in *; unfold at_tile in *;
  repeat match goal with
  | H : context [Nat.ltb ?a ?b] |- _ => destruct (Nat.ltb_spec a b)
  | |- context [Nat.ltb ?a ?b] => destruct (Nat.ltb_spec a b)
  | H : context [Nat.leb ?a ?b] |- _ => destruct (Nat.leb_spec a b)
  | |- context [Nat.leb ?a ?b] => destruct (Nat.leb_spec a b)
  | H : context [Nat.eqb ?a ?b] |- _ => destruct (Nat.eqb_spec a b)
  | |- context [Nat.eqb ?a ?b] => destruct (Nat.eqb_spec a b)
  end; cbn [andb] in *; subst; try lia.
Ltac less := intros t T; rewrite ?hand_run, ?hand_taatsu1, ?hand_taatsu2, ?hand_kuttsuki, ?hand_koutsu, ?hand_toitsu by (try apply len_kou; try apply len_toi; assumption);
  cbn [uses]; repeat match goal with |- context [if ?c then _ else _] => destruct c end; lia.

Section Step.
  Variable n : nat.
  Hypothesis IH : forall idx s l ps q, (mu idx (sv_hand s) < n)%nat -> length (sv_hand s) = 37%nat -> (idx <= 27)%nat ->
    (forall t, (t < 27)%nat -> vget (sv_hand s) t <= 4) -> Conf (from idx (sv_hand s)) l ps q -> finds idx s l ps q.
  Variables (idx i : nat) (s : sv).
  Hypothesis L : length (sv_hand s) = 37%nat.
  Hypothesis I : (idx <= i < 27)%nat.
  Hypothesis Z0 : forall t, (idx <= t < i)%nat -> vget (sv_hand s) t = 0.
  Hypothesis NZ : vget (sv_hand s) i <> 0.
  Hypothesis M : (mu idx (sv_hand s) < S n)%nat.
  Hypothesis MI : (mu i (sv_hand s) <= mu idx (sv_hand s))%nat.
  Hypothesis H4 : forall t, (t < 27)%nat -> vget (sv_hand s) t <= 4.

  Lemma take j c l ps q l' ps' q' : In (j, c) (branches i s) ->
    (forall t, (t < 27)%nat -> vget (sv_hand c) t <= vget (sv_hand s) t) ->
    Conf (from j (sv_hand c)) l' ps' q' -> sv_tune c = sv_tune s ->
    (forall m p a, ends l' ps' q' m p a -> ends l ps q (m + (sv_mentsu c - sv_mentsu s)) (p + (sv_toitsu c - sv_toitsu s)) (a + (sv_taatsu c - sv_taatsu s))) ->
    finds idx s l ps q.
  Proof.
    intros B Le X Et En. destruct (branch_smaller i s j c L (proj2 I) B) as (Lc & J & Mu).
    destruct (IH j c l' ps' q') as (s' & m & p & a & R & A1 & A2 & A3 & A4 & A5); try assumption; try lia.
    - intros t T. specialize (Le t T). specialize (H4 t T). lia.
    - exists s', (m + (sv_mentsu c - sv_mentsu s)), (p + (sv_toitsu c - sv_toitsu s)), (a + (sv_taatsu c - sv_taatsu s)).
      split; [|split; [lia|split; [lia|split; [lia|split; [congruence|now apply En]]]]].
      eapply Reach_step; [exact I|exact Z0|exact NZ|exact B|exact R].
  Qed.

  Notation F := (from i (sv_hand s)).
  Lemma F_i : F i = vget (sv_hand s) i. Proof. unfold from. now rewrite (proj2 (Nat.ltb_ge i i)) by lia. Qed.

  Lemma F_at t l ps q : (i <= t < 27)%nat -> Conf F l ps q -> vget (sv_hand s) t = uses_all l t + two ps t + piece_uses q t.
  Proof. intros T (_ & _ & _ & _ & E). rewrite <- E by lia. unfold from. now rewrite (proj2 (Nat.ltb_ge t i)) by lia. Qed.

  Ltac parts := match goal with H : Conf _ _ _ _ |- _ => destruct H as (A & B & C & D & E) end.
  Ltac nn r ps q := pose proof (uses_all_nonneg r) as U1; pose proof (two_nonneg ps) as U2; pose proof (piece_nonneg q) as U3.
  Ltac done := let m := fresh in let p := fresh in let a := fresh in intros m p a; unfold ends; fields; cbn [length]; lia.

  Lemma kou3 r ps q : vget (sv_hand s) i = 3 -> Conf F (Triplet i :: r) ps q -> finds idx s (Triplet i :: r) ps q.
  Proof.
    intros V X. parts. apply (take (S i) (add_koutsu i s) _ _ _ r ps q).
    - unfold branches. rewrite V. cbn. now left.
    - less.
    - split; [now inversion A|]. do 3 (split; [assumption|]). nn r ps q. child U1 U2 U3 E.
    - reflexivity.
    - destruct q; done.
  Qed.
  Lemma kou_drop r : vget (sv_hand s) i = 4 -> Conf F (Triplet i :: r) [] (One i) -> finds idx s (Triplet i :: r) [] (One i).
  Proof.
    intros V X. parts. apply (take (S i) (add_koutsu i s) _ _ _ r [] Nothing).
    - unfold branches. rewrite V. cbn [Z.eqb Pos.eqb]. apply in_or_app. right. now left.
    - less.
    - split; [now inversion A|]. split; [assumption|]. split; [exact Logic.I|]. split; [constructor|]. nn r (@nil nat) Nothing. child U1 U2 U3 E.
    - reflexivity.
    - done.
  Qed.
  Lemma kou_run r ps q : vget (sv_hand s) i = 4 -> Conf F (Triplet i :: Run i :: r) ps q -> finds idx s (Triplet i :: Run i :: r) ps q.
  Proof.
    intros V X. pose proof X as (A0 & _). pose proof (Forall_inv (Forall_inv_tail A0)) as [R1 R2]. pose proof (run_fits i R1 R2) as R3.
    pose proof (F_at (i + 1) _ _ _ ltac:(lia) X) as V1. pose proof (F_at (i + 2) _ _ _ ltac:(lia) X) as V2. rewrite !uses_all_cons in V1, V2. cbn [uses] in V1, V2.
    rewrite (proj2 (Nat.eqb_neq (i + 1) i)), (proj2 (Nat.leb_le i (i + 1))), (proj2 (Nat.leb_le (i + 1) (i + 2))) in V1 by lia.
    rewrite (proj2 (Nat.eqb_neq (i + 2) i)), (proj2 (Nat.leb_le i (i + 2))), Nat.leb_refl in V2 by lia. cbn [andb] in V1, V2.
    parts. nn r ps q. apply (take i (add_shuntsu i (add_koutsu i s)) _ _ _ r ps q).
    - unfold branches. rewrite V. cbn [Z.eqb Pos.eqb]. apply in_or_app. left. apply in_map. specialize (U1 (i + 1)%nat) as W1. specialize (U1 (i + 2)%nat) as W2. specialize (U2 (i + 1)%nat) as W3. specialize (U2 (i + 2)%nat) as W4. specialize (U3 (i + 1)%nat) as W5. specialize (U3 (i + 2)%nat) as W6.
      apply in_ps_shuntsu; [exact R2| |]; rewrite hand_koutsu by (assumption || lia); rewrite (proj2 (Nat.eqb_neq _ i)) by lia; lia.
    - less.
    - split; [now inversion A as [|? ? _ Q]; inversion Q|]. do 3 (split; [assumption|]). child U1 U2 U3 E.
    - reflexivity.
    - destruct q; done.
  Qed.
  Lemma kou_gap r ps : vget (sv_hand s) i = 4 -> Conf F (Triplet i :: r) ps (Gap i) -> finds idx s (Triplet i :: r) ps (Gap i).
  Proof.
    intros V X. pose proof X as (_ & _ & [R1 R2] & _). pose proof (run_fits i R1 R2) as R3.
    pose proof (F_at (i + 2) _ _ _ ltac:(lia) X) as V2. rewrite !uses_all_cons in V2. cbn [uses piece_uses] in V2. unfold at_tile in V2.
    rewrite (proj2 (Nat.eqb_neq (i + 2) i)), Nat.eqb_refl in V2 by lia.
    parts. nn r ps Nothing. apply (take i (add_taatsu i 1 (add_koutsu i s)) _ _ _ r ps Nothing).
    - unfold branches. rewrite V. cbn [Z.eqb Pos.eqb]. apply in_or_app. left. apply in_map. specialize (U1 (i + 2)%nat) as W2. specialize (U2 (i + 2)%nat) as W4.
      apply in_ps_gap; [exact R2|]; rewrite hand_koutsu by (assumption || lia); rewrite (proj2 (Nat.eqb_neq _ i)) by lia; lia.
    - less.
    - split; [now inversion A|]. split; [assumption|]. split; [exact Logic.I|]. split; [now apply short_nodup|]. child U1 U2 U3 E.
    - reflexivity.
    - done.
  Qed.
  Lemma kou_side r ps : vget (sv_hand s) i = 4 -> Conf F (Triplet i :: r) ps (Side i) -> finds idx s (Triplet i :: r) ps (Side i).
  Proof.
    intros V X. pose proof X as (_ & _ & [R1 R2] & _). pose proof (side_fits i R1 R2) as R3.
    pose proof (F_at (i + 1) _ _ _ ltac:(lia) X) as V2. rewrite !uses_all_cons in V2. cbn [uses piece_uses] in V2. unfold at_tile in V2.
    rewrite (proj2 (Nat.eqb_neq (i + 1) i)), Nat.eqb_refl in V2 by lia.
    parts. nn r ps Nothing. apply (take i (add_taatsu i 2 (add_koutsu i s)) _ _ _ r ps Nothing).
    - unfold branches. rewrite V. cbn [Z.eqb Pos.eqb]. apply in_or_app. left. apply in_map. specialize (U1 (i + 1)%nat) as W2. specialize (U2 (i + 1)%nat) as W4.
      apply in_ps_side; [exact R2|]; rewrite hand_koutsu by (assumption || lia); rewrite (proj2 (Nat.eqb_neq _ i)) by lia; lia.
    - less.
    - split; [now inversion A|]. split; [assumption|]. split; [exact Logic.I|]. split; [now apply short_nodup|]. child U1 U2 U3 E.
    - reflexivity.
    - done.
  Qed.
  Lemma goes_tail q p ps : goes_with q (p :: ps) -> goes_with q ps /\ (q = Nothing \/ ps = []).
  Proof. destruct q; cbn [goes_with]; intros H; [now inversion H; split; [|left]|discriminate H| |]; destruct ps; cbn [length] in *; try lia; auto. Qed.
  Lemma toi l ps q : 2 <= vget (sv_hand s) i <= 3 -> Conf F l (i :: ps) q -> finds idx s l (i :: ps) q.
  Proof.
    intros V X. parts. destruct (goes_tail _ _ _ D) as [D1 D2]. nn l ps q.
    apply (take (if vget (sv_hand s) i =? 2 then S i else i) (add_toitsu i s) _ _ _ l ps q).
    - unfold branches. assert (vget (sv_hand s) i = 2 \/ vget (sv_hand s) i = 3) as [Q|Q] by lia; rewrite Q; cbn; auto.
    - less.
    - split; [assumption|]. split; [now inversion B|]. do 2 (split; [assumption|]). destruct (Z.eqb_spec (vget (sv_hand s) i) 2) as [Q|Q]; child U1 U2 U3 E.
    - reflexivity.
    - destruct D2 as [->| ->]; [done|destruct q; [done|discriminate D|done|done]].
  Qed.
  Lemma toi_run r ps q : vget (sv_hand s) i = 4 -> Conf F (Run i :: r) (i :: ps) q -> finds idx s (Run i :: r) (i :: ps) q.
  Proof.
    intros V X. pose proof X as (A0 & _). pose proof (Forall_inv A0) as [R1 R2]. pose proof (run_fits i R1 R2) as R3.
    pose proof (F_at (i + 1) _ _ _ ltac:(lia) X) as V1. pose proof (F_at (i + 2) _ _ _ ltac:(lia) X) as V2. rewrite !uses_all_cons, two_cons in V1, V2. cbn [uses] in V1, V2.
    rewrite (proj2 (Nat.eqb_neq (i + 1) i)), (proj2 (Nat.leb_le i (i + 1))), (proj2 (Nat.leb_le (i + 1) (i + 2))) in V1 by lia.
    rewrite (proj2 (Nat.eqb_neq (i + 2) i)), (proj2 (Nat.leb_le i (i + 2))), Nat.leb_refl in V2 by lia. cbn [andb] in V1, V2.
    parts. destruct (goes_tail _ _ _ D) as [D1 D2]. nn r ps q. apply (take i (add_shuntsu i (add_toitsu i s)) _ _ _ r ps q).
    - unfold branches. rewrite V. cbn [Z.eqb Pos.eqb]. apply in_or_app. right. right. apply in_map. specialize (U1 (i + 1)%nat) as W1. specialize (U1 (i + 2)%nat) as W2. specialize (U2 (i + 1)%nat) as W3. specialize (U2 (i + 2)%nat) as W4. specialize (U3 (i + 1)%nat) as W5. specialize (U3 (i + 2)%nat) as W6.
      apply in_ps_shuntsu; [exact R2| |]; rewrite hand_toitsu by (assumption || lia); rewrite (proj2 (Nat.eqb_neq _ i)) by lia; lia.
    - less.
    - split; [now inversion A|]. split; [now inversion B|]. do 2 (split; [assumption|]). child U1 U2 U3 E.
    - reflexivity.
    - destruct D2 as [->| ->]; [done|destruct q; [done|discriminate D|done|done]].
  Qed.
  Lemma ps_in c : 1 <= vget (sv_hand s) i <= 2 -> In c (ps_branches i false s) -> In (i, c) (branches i s).
  Proof.
    intros V H. unfold branches. assert (vget (sv_hand s) i = 1 \/ vget (sv_hand s) i = 2) as [Q|Q] by lia; rewrite Q; cbn [Z.eqb Pos.eqb]; [|right]; now apply in_map.
  Qed.
  Lemma run r ps q : 1 <= vget (sv_hand s) i <= 2 -> Conf F (Run i :: r) ps q -> finds idx s (Run i :: r) ps q.
  Proof.
    intros V X. pose proof X as (A0 & _). pose proof (Forall_inv A0) as [R1 R2]. pose proof (run_fits i R1 R2) as R3.
    pose proof (F_at (i + 1) _ _ _ ltac:(lia) X) as V1. pose proof (F_at (i + 2) _ _ _ ltac:(lia) X) as V2. rewrite !uses_all_cons in V1, V2. cbn [uses] in V1, V2.
    rewrite (proj2 (Nat.leb_le i (i + 1))), (proj2 (Nat.leb_le (i + 1) (i + 2))) in V1 by lia.
    rewrite (proj2 (Nat.leb_le i (i + 2))), Nat.leb_refl in V2 by lia. cbn [andb] in V1, V2.
    parts. nn r ps q. apply (take i (add_shuntsu i s) _ _ _ r ps q).
    - apply ps_in; [exact V|]. specialize (U1 (i + 1)%nat) as W1. specialize (U1 (i + 2)%nat) as W2. specialize (U2 (i + 1)%nat) as W3. specialize (U2 (i + 2)%nat) as W4. specialize (U3 (i + 1)%nat) as W5. specialize (U3 (i + 2)%nat) as W6.
      apply in_ps_shuntsu; [exact R2| |]; lia.
    - less.
    - split; [now inversion A|]. do 3 (split; [assumption|]). child U1 U2 U3 E.
    - reflexivity.
    - destruct q; done.
  Qed.
  Lemma one l : vget (sv_hand s) i = 1 -> Conf F l [] (One i) -> finds idx s l [] (One i).
  Proof.
    intros V X. parts. nn l (@nil nat) Nothing. apply (take i (add_kuttsuki i false s) _ _ _ l [] Nothing).
    - apply ps_in; [lia|apply in_ps_one].
    - less.
    - split; [assumption|]. split; [assumption|]. split; [exact Logic.I|]. split; [constructor|]. child U1 U2 U3 E.
    - reflexivity.
    - done.
  Qed.
  Lemma gap l ps : vget (sv_hand s) i = 1 -> Conf F l ps (Gap i) -> finds idx s l ps (Gap i).
  Proof.
    intros V X. pose proof X as (_ & _ & [R1 R2] & _). pose proof (run_fits i R1 R2) as R3.
    pose proof (F_at (i + 2) _ _ _ ltac:(lia) X) as V2. cbn [uses piece_uses] in V2. unfold at_tile in V2.
    rewrite (proj2 (Nat.eqb_neq (i + 2) i)), Nat.eqb_refl in V2 by lia.
    parts. nn l ps Nothing. apply (take i (add_taatsu i 1 s) _ _ _ l ps Nothing).
    - apply ps_in; [lia|]. specialize (U1 (i + 2)%nat) as W2. specialize (U2 (i + 2)%nat) as W4. apply in_ps_gap; [exact R2|lia].
    - less.
    - split; [assumption|]. split; [assumption|]. split; [exact Logic.I|]. split; [now apply short_nodup|]. child U1 U2 U3 E.
    - reflexivity.
    - done.
  Qed.
  Lemma side l ps : vget (sv_hand s) i = 1 -> Conf F l ps (Side i) -> finds idx s l ps (Side i).
  Proof.
    intros V X. pose proof X as (_ & _ & [R1 R2] & _). pose proof (side_fits i R1 R2) as R3.
    pose proof (F_at (i + 1) _ _ _ ltac:(lia) X) as V2. cbn [uses piece_uses] in V2. unfold at_tile in V2.
    rewrite (proj2 (Nat.eqb_neq (i + 1) i)), Nat.eqb_refl in V2 by lia.
    parts. nn l ps Nothing. apply (take i (add_taatsu i 2 s) _ _ _ l ps Nothing).
    - apply ps_in; [lia|]. specialize (U1 (i + 1)%nat) as W2. specialize (U2 (i + 1)%nat) as W4. apply in_ps_side; [exact R2|lia].
    - less.
    - split; [assumption|]. split; [assumption|]. split; [exact Logic.I|]. split; [now apply short_nodup|]. child U1 U2 U3 E.
    - reflexivity.
    - done.
  Qed.
End Step.

Lemma complete n : forall idx s l ps q, (mu idx (sv_hand s) < n)%nat -> length (sv_hand s) = 37%nat -> (idx <= 27)%nat ->
  (forall t, (t < 27)%nat -> vget (sv_hand s) t <= 4) -> Conf (from idx (sv_hand s)) l ps q -> finds idx s l ps q.
Proof.
  induction n as [|n IH]; intros idx s l ps q M L I H4 X; [lia|].
  pose proof (skip_mu idx (sv_hand s) I) as SM.
  pose proof (skip_spec (27 - idx) (sv_hand s) idx) as SK. cbn zeta in SK.
  destruct SK as (Si & Sz & Sn).
  set (i := skip (27 - idx) (sv_hand s) idx) in *. clearbody i.
  destruct (Nat.eq_dec i 27) as [E|NE].
  { subst i. destruct X as (A & B & C & D & E).
    assert (Z : forall t, (t < 27)%nat -> 0 = uses_all l t + two ps t + piece_uses q t).
    { intros t T. rewrite <- E by exact T. unfold from. destruct (Nat.ltb_spec t idx); [reflexivity|]. rewrite Sz; [reflexivity|lia]. }
    assert (l = []) as ->.
    { destruct l as [|m l]; [reflexivity|exfalso]. pose proof (Forall_inv A) as A1. destruct m as [k|k]; cbn [legal27] in A1.
      - specialize (Z k A1). rewrite uses_all_cons in Z. cbn [uses] in Z. rewrite Nat.eqb_refl in Z. pose proof (uses_all_nonneg l k). pose proof (two_nonneg ps k). pose proof (piece_nonneg q k). lia.
      - specialize (Z k (proj1 A1)). rewrite uses_all_cons in Z. cbn [uses] in Z. rewrite Nat.leb_refl, (proj2 (Nat.leb_le k (k + 2))) in Z by lia. cbn [andb] in Z. pose proof (uses_all_nonneg l k). pose proof (two_nonneg ps k). pose proof (piece_nonneg q k). lia. }
    assert (ps = []) as ->.
    { destruct ps as [|p ps]; [reflexivity|exfalso]. pose proof (Forall_inv B) as B1. cbv beta in B1. specialize (Z p B1). rewrite two_cons, Nat.eqb_refl in Z. pose proof (two_nonneg ps p). pose proof (piece_nonneg q p). cbn [uses_all fold_right] in Z. lia. }
    assert (q = Nothing) as ->.
    { destruct q as [|k|k|k]; [reflexivity| | |]; exfalso; cbn [piece_ok] in C; (assert (K : (k < 27)%nat) by lia); specialize (Z k K); cbn [piece_uses two uses_all fold_right] in Z; unfold at_tile in Z;
        rewrite Nat.eqb_refl in Z; repeat match goal with H : context [Nat.eqb ?a ?b] |- _ => destruct (Nat.eqb a b) end; lia. }
    exists s, 0, 0, 0. split; [constructor; [exact I|intros k K; apply Sz; exact K]|]. cbn. lia. }
  assert (I' : (i < 27)%nat) by lia.
  assert (NZ : vget (sv_hand s) i <> 0) by (apply Sn; lia).
  assert (Z0 : forall t, (idx <= t < i)%nat -> vget (sv_hand s) t = 0) by (intros t T; apply Sz; lia).
  assert (X1 : Conf (from i (sv_hand s)) l ps q).
  { destruct X as (A & B & C & D & E). do 4 (split; [assumption|]). intros t T. rewrite <- E by exact T. unfold from.
    destruct (Nat.ltb_spec t i), (Nat.ltb_spec t idx); try reflexivity; try lia. symmetry. apply Sz. lia. }
  clear X. assert (J : (idx <= i < 27)%nat) by lia.
  pose proof (H4 i I') as G4.
  pose proof (kou3 n IH idx i s L J Z0 NZ M SM H4) as Kou3. pose proof (kou_drop n IH idx i s L J Z0 NZ M SM H4) as KouDrop.
  pose proof (kou_run n IH idx i s L J Z0 NZ M SM H4) as KouRun. pose proof (kou_gap n IH idx i s L J Z0 NZ M SM H4) as KouGap.
  pose proof (kou_side n IH idx i s L J Z0 NZ M SM H4) as KouSide. pose proof (toi n IH idx i s L J Z0 NZ M SM H4) as Toi.
  pose proof (toi_run n IH idx i s L J Z0 NZ M SM H4) as ToiRun. pose proof (run n IH idx i s L J Z0 NZ M SM H4) as RunI.
  pose proof (one n IH idx i s L J Z0 NZ M SM H4) as OneI. pose proof (gap n IH idx i s L J Z0 NZ M SM H4) as GapI.
  pose proof (side n IH idx i s L J Z0 NZ M SM H4) as SideI. clear IH.
  set (F := from i (sv_hand s)) in *.
  assert (Fl : forall t, (t < i)%nat -> F t = 0) by (intros t T; unfold F, from; now rewrite (proj2 (Nat.ltb_lt t i)) by lia).
  assert (Fi : F i = vget (sv_hand s) i) by (unfold F, from; now rewrite (proj2 (Nat.ltb_ge i i)) by lia).
  assert (Fg : forall t, (t < 27)%nat -> F t <= 4) by (intros t T; unfold F, from; destruct (Nat.ltb t i); [lia|now apply H4]).
  clearbody F. rewrite <- Fi in *.
  assert (Low : forall t, (t < i)%nat -> uses_all l t = 0 /\ two ps t = 0 /\ piece_uses q t = 0).
  { intros t T. destruct X1 as (_ & _ & _ & _ & E). specialize (E t ltac:(lia)). rewrite Fl in E by exact T.
    pose proof (uses_all_nonneg l t). pose proof (two_nonneg ps t). pose proof (piece_nonneg q t). lia. }
  destruct (sets_at i l (proj1 X1)) as (a & b & r & Pm & Ur); [intros t T; now apply Low|].
  apply (finds_perm _ _ _ _ _ _ Pm). apply (conf_perm _ _ _ _ _ Pm) in X1. clear Pm.
  assert (Lq : forall t, (t < i)%nat -> piece_uses q t = 0) by (intros t T; now apply Low). clear Low.
  assert (UT : forall k, uses_all (repeat (Triplet i) k) i = 3 * Z.of_nat k).
  { induction k as [|k IHk]; [reflexivity|]. cbn [repeat]. rewrite uses_all_cons, IHk. cbn [uses]. rewrite Nat.eqb_refl. lia. }
  assert (UR : forall k, uses_all (repeat (Run i) k) i = Z.of_nat k).
  { induction k as [|k IHk]; [reflexivity|]. cbn [repeat]. rewrite uses_all_cons, IHk. cbn [uses]. rewrite Nat.leb_refl, (proj2 (Nat.leb_le i (i + 2))) by lia. cbn [andb]. lia. }
  assert (UA : forall x y t, uses_all (x ++ y) t = uses_all x t + uses_all y t) by (intros x y t; unfold uses_all; induction x as [|z x IHx]; cbn [app fold_right]; lia).
  assert (C : F i = 3 * Z.of_nat a + Z.of_nat b + two ps i + piece_uses q i).
  { destruct X1 as (_ & _ & _ & _ & E). rewrite E, !UA, UT, UR, Ur by exact I'. lia. }
  pose proof (two_nonneg ps i) as N2. pose proof (piece_nonneg q i) as N3.
  (* a pair of the first tile *)
  destruct (Z.eq_dec (two ps i) 0) as [P0|P0].
  2:{ destruct (pair_at ps i P0) as (ps' & Pp). apply (finds_pairs _ _ _ _ _ _ Pp). apply (conf_pairs _ _ _ _ _ Pp) in X1.
      rewrite (two_perm _ _ i Pp), two_cons, Nat.eqb_refl in C.
      pose proof (two_nonneg ps' i) as N2'.
      assert (T0 : two ps' i = 0).
      { destruct X1 as (_ & _ & _ & D & _). destruct (Z.eq_dec (two ps' i) 0) as [Q|Q]; [exact Q|exfalso]. destruct (pair_at ps' i Q) as (ps2 & P2).
        destruct q; cbn [goes_with] in D; [|discriminate D| |]; [|apply Permutation_length in P2; cbn [length] in *; lia|apply Permutation_length in P2; cbn [length] in *; lia].
        inversion D as [|? ? D1 _]. apply D1. apply Permutation_sym in P2. eapply Permutation_in; [exact P2|now left]. }
      assert (a = O) as -> by lia. cbn [repeat app] in *.
      destruct (Z.eq_dec (F i) 4) as [V|V]; [|apply Toi; [lia|exact X1]].
      destruct b as [|b]; [exfalso|cbn [repeat app] in *; now apply ToiRun].
      assert (P1 : piece_uses q i <> 0) by lia. destruct (piece_at q i P1 Lq) as [P2 _]. lia. }
  (* no pair of the first tile *)
  destruct (Z.eq_dec (piece_uses q i) 0) as [Q0|Q0].
  - assert (a = O /\ (1 <= b <= 4)%nat \/ a = 1%nat /\ (b <= 1)%nat) as [[-> B]|[-> B]] by lia; cbn [repeat app] in *.
    + destruct b as [|[|[|[|[|b]]]]]; try lia; cbn [repeat app] in *.
      * apply RunI; [lia|exact X1].
      * apply RunI; [lia|exact X1].
      * apply conf_runs3 in X1. apply (finds_as _ _ (Triplet i :: Triplet (i + 1) :: Triplet (i + 2) :: r) ps q); [intros m p x; unfold ends; cbn [length]; now auto|]. apply Kou3; [lia|exact X1].
      * apply conf_runs3 in X1. apply (finds_as _ _ (Triplet i :: Run i :: Triplet (i + 1) :: Triplet (i + 2) :: r) ps q); [intros m p x; unfold ends; cbn [length]; now auto|].
        apply KouRun; [lia|]. eapply conf_perm; [|exact X1]. constructor. etransitivity; [apply perm_skip, perm_swap|]. apply perm_swap.
    + destruct b as [|[|b]]; try lia; cbn [repeat app] in *; [apply Kou3|apply KouRun]; (lia || exact X1).
  - destruct (piece_at q i Q0 Lq) as [Q1 Q2].
    assert (a = O /\ (b <= 3)%nat \/ a = 1%nat /\ b = O) as [[-> B]|[-> ->]] by lia; cbn [repeat app] in *.
    2:{ destruct Q2 as [->|[->| ->]]; [|apply KouGap; [lia|exact X1]|apply KouSide; [lia|exact X1]].
        assert (ps = []) as -> by apply X1. apply KouDrop; [lia|exact X1]. }
    destruct b as [|[|[|[|b]]]]; try lia; cbn [repeat app] in *.
    + destruct Q2 as [->|[->| ->]]; [|apply GapI; [lia|exact X1]|apply SideI; [lia|exact X1]].
      assert (ps = []) as -> by apply X1. apply OneI; [lia|exact X1].
    + apply RunI; [lia|exact X1].
    + (* two runs and the left-over *)
      pose proof X1 as (A & B' & Pk & D & E). pose proof (Forall_inv A) as [R1 R2]. pose proof (run_fits i R1 R2) as R3.
      pose proof (Forall_inv_tail (Forall_inv_tail A)) as A5.
      destruct Q2 as [->|[->| ->]]; cbn [goes_with] in D.
      * subst ps. apply (finds_as _ _ (Triplet i :: r) [i + 1; i + 2]%nat Nothing); [intros m p x; unfold ends; cbn [length]; lia|]. apply Kou3; [lia|].
        split; [apply Forall_cons; [exact R1|exact A5]|]. split; [repeat (apply Forall_cons; [lia|]); constructor|]. split; [exact Logic.I|].
        split; [cbn [goes_with]; constructor; [intros [Q|[]]; lia|apply short_nodup; cbn; lia]|].
        intros t T. rewrite (E t T), !uses_all_cons, !two_cons. cbn [uses two fold_right piece_uses]. unfold at_tile. tiles; cbn [andb]; lia.
      * destruct ps as [|p [|? ?]]; [| |cbn [length] in D; lia].
        -- apply (finds_as _ _ (Triplet i :: Triplet (i + 2) :: r) [i + 1]%nat Nothing); [intros m p x; unfold ends; cbn [length]; lia|]. apply Kou3; [lia|].
           split; [do 2 (apply Forall_cons; [cbn; lia|]); exact A5|]. split; [repeat (apply Forall_cons; [lia|]); constructor|]. split; [exact Logic.I|].
           split; [apply short_nodup; cbn; lia|].
           intros t T. rewrite (E t T), !uses_all_cons, !two_cons. cbn [uses two fold_right piece_uses]. unfold at_tile. tiles; cbn [andb]; lia.
        -- destruct (Nat.eq_dec p (i + 1)) as [->|Np].
           ++ apply (finds_as _ _ (Triplet i :: Triplet (i + 1) :: Triplet (i + 2) :: r) [] (One (i + 1))); [intros m p x; unfold ends; cbn [length]; lia|]. apply Kou3; [lia|].
              split; [do 3 (apply Forall_cons; [cbn; lia|]); exact A5|]. split; [constructor|]. split; [cbn; lia|]. split; [reflexivity|].
              intros t T. rewrite (E t T), !uses_all_cons, !two_cons. cbn [uses two fold_right piece_uses]. unfold at_tile. tiles; cbn [andb]; lia.
           ++ apply (finds_as _ _ (Triplet i :: Triplet (i + 2) :: r) [i + 1; p]%nat Nothing); [intros m y x; unfold ends; cbn [length]; lia|]. apply Kou3; [lia|].
              split; [do 2 (apply Forall_cons; [cbn; lia|]); exact A5|]. split; [apply Forall_cons; [lia|exact B']|]. split; [exact Logic.I|].
              split; [cbn [goes_with]; constructor; [intros [Q|[]]; lia|apply short_nodup; cbn; lia]|].
              intros t T. rewrite (E t T), !uses_all_cons, !two_cons. cbn [uses two fold_right piece_uses]. unfold at_tile. tiles; cbn [andb]; lia.
      * destruct ps as [|p [|? ?]]; [| |cbn [length] in D; lia].
        -- apply (finds_as _ _ (Triplet i :: Triplet (i + 1) :: r) [i + 2]%nat Nothing); [intros m p x; unfold ends; cbn [length]; lia|]. apply Kou3; [lia|].
           split; [do 2 (apply Forall_cons; [cbn; lia|]); exact A5|]. split; [repeat (apply Forall_cons; [lia|]); constructor|]. split; [exact Logic.I|].
           split; [apply short_nodup; cbn; lia|].
           intros t T. rewrite (E t T), !uses_all_cons, !two_cons. cbn [uses two fold_right piece_uses]. unfold at_tile. tiles; cbn [andb]; lia.
        -- destruct (Nat.eq_dec p (i + 2)) as [->|Np].
           ++ apply (finds_as _ _ (Run i :: Triplet (i + 2) :: r) [i; i + 1]%nat Nothing); [intros m y x; unfold ends; cbn [length]; lia|]. apply Toi; [lia|].
              split; [apply Forall_cons; [split; assumption|]; apply Forall_cons; [cbn; lia|exact A5]|]. split; [repeat (apply Forall_cons; [lia|]); constructor|]. split; [exact Logic.I|].
              split; [cbn [goes_with]; constructor; [intros [Q|[]]; lia|apply short_nodup; cbn; lia]|].
              intros t T. rewrite (E t T), !uses_all_cons, !two_cons. cbn [uses two fold_right piece_uses]. unfold at_tile. tiles; cbn [andb]; lia.
           ++ apply (finds_as _ _ (Triplet i :: Triplet (i + 1) :: r) [i + 2; p]%nat Nothing); [intros m y x; unfold ends; cbn [length]; lia|]. apply Kou3; [lia|].
              split; [do 2 (apply Forall_cons; [cbn; lia|]); exact A5|]. split; [apply Forall_cons; [lia|exact B']|]. split; [exact Logic.I|].
              split; [cbn [goes_with]; constructor; [intros [Q|[]]; lia|apply short_nodup; cbn; lia]|].
              intros t T. rewrite (E t T), !uses_all_cons, !two_cons. cbn [uses two fold_right piece_uses]. unfold at_tile. tiles; cbn [andb]; lia.
    + (* three runs and the left-over *)
      apply conf_runs3 in X1. apply (finds_as _ _ (Triplet i :: Triplet (i + 1) :: Triplet (i + 2) :: r) ps q); [intros m p x; unfold ends; cbn [length]; now auto|].
      destruct Q2 as [->|[->| ->]]; [|apply KouGap; [lia|exact X1]|apply KouSide; [lia|exact X1]].
      assert (ps = []) as -> by apply X1. apply KouDrop; [lia|exact X1].
Qed.
