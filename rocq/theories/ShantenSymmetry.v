(** The leaves of the search are sums of contributions of the three suits. *)
From Coq Require Import ZArith List Bool Lia Arith.
From Verif Require Import Base Constants VecLemmas Shanten ShantenSearch.
Import ListNotations.
Open Scope Z_scope.

(** ** The search up to type [e] *)
Inductive Reach_to (e : nat) : nat -> sv -> sv -> Prop :=
| To_leaf idx s : (idx <= e)%nat -> (forall k, (idx <= k < e)%nat -> vget (sv_hand s) k = 0) -> Reach_to e idx s s
| To_step idx i s j c s' : (idx <= i < e)%nat -> (forall k, (idx <= k < i)%nat -> vget (sv_hand s) k = 0) ->
    vget (sv_hand s) i <> 0 -> In (j, c) (branches i s) -> Reach_to e j c s' -> Reach_to e idx s s'.

Lemma reach_27 idx s s' : Reach idx s s' <-> Reach_to 27 idx s s'.
Proof. split; induction 1; econstructor; eauto. Qed.

Lemma branch_next i s j c : In (j, c) (branches i s) -> (i <= j <= S i)%nat.
Proof.
  assert (N : forall t x, In (j, c) (map (pair i) (ps_branches i t x)) -> j = i).
  { intros t x Q. apply in_map_iff in Q as (y & Q & _). now injection Q. }
  unfold branches. destruct (vget (sv_hand s) i =? 4).
  { intros H. apply in_app_or in H as [H|[H|H]]; [apply N in H; lia|injection H as <- <-; lia|apply N in H; lia]. }
  destruct (vget (sv_hand s) i =? 3); [intros [H|[H|[]]]; injection H as <- <-; lia|].
  destruct (vget (sv_hand s) i =? 2); [intros [H|H]; [injection H as <- <-; lia|apply N in H; lia]|].
  destruct (vget (sv_hand s) i =? 1); [intros H; apply N in H; lia|intros []].
Qed.

Lemma split_at e e' idx s s' : (idx <= e <= e')%nat -> Reach_to e' idx s s' -> exists m, Reach_to e idx s m /\ Reach_to e' e m s'.
Proof.
  intros Hi R. revert Hi. induction R as [idx s L Z|idx i s j c s' Hi Z N B R IH]; intros He.
  - exists s. split; (constructor; [lia|]; intros k K; apply Z; lia).
  - destruct (Nat.lt_ge_cases i e) as [Q|Q].
    + pose proof (branch_next _ _ _ _ B) as J. destruct IH as (m & A & C); [lia|]. exists m. split; [|exact C]. eapply To_step; [|exact Z|exact N|exact B|exact A]. lia.
    + exists s. split; [constructor; [lia|]; intros k K; apply Z; lia|]. apply (To_step e' e i s j c s'); [lia|intros k K; apply Z; lia|exact N|exact B|exact R].
Qed.
Lemma join_at e e' idx s m s' : (e <= e')%nat -> Reach_to e idx s m -> Reach_to e' e m s' -> Reach_to e' idx s s'.
Proof.
  intros He R. induction R as [idx s L Z|idx i s j c m Hi Z N B R IH]; intros T.
  - inversion T as [? ? L' Z'|? i ? j c ? Hi' Z' N' B' R']; subst.
    + constructor; [lia|]. intros k K. destruct (Nat.lt_ge_cases k e); [apply Z; lia|apply Z'; lia].
    + apply (To_step e' idx i s j c s'); [lia| |exact N'|exact B'|exact R']. intros k K. destruct (Nat.lt_ge_cases k e); [apply Z; lia|apply Z'; lia].
  - eapply To_step; [|exact Z|exact N|exact B|apply IH; exact T]. lia.
Qed.

(** ** One suit in two places *)
Record counters := MkC { c_mentsu : Z; c_taatsu : Z; c_toitsu : Z; c_tune : Z }.
Definition counts (s : sv) : counters := MkC (sv_mentsu s) (sv_taatsu s) (sv_toitsu s) (sv_tune s).
Definition cadd (a b : counters) : counters :=
  MkC (c_mentsu a + c_mentsu b) (c_taatsu a + c_taatsu b) (c_toitsu a + c_toitsu b) (c_tune a + c_tune b).
Definition outside (b k : nat) : Prop := (k < b \/ b + 9 <= k)%nat.

(** [s1] at suit [b1] and [s2] at suit [b2] hold the same tiles; their counters differ from
    [k1] and [k2] by the same amount and the rests of their hands are those of [h1] and [h2]. *)
Definition sim (b1 b2 : nat) (k1 k2 : counters) (h1 h2 : list Z) (s1 s2 : sv) : Prop :=
  length (sv_hand s1) = 37%nat /\ length (sv_hand s2) = 37%nat /\
  (forall j, (j < 9)%nat -> vget (sv_hand s1) (b1 + j) = vget (sv_hand s2) (b2 + j)) /\
  (exists d, counts s1 = cadd k1 d /\ counts s2 = cadd k2 d) /\
  (forall t, outside b1 t -> vget (sv_hand s1) t = vget h1 t) /\ (forall t, outside b2 t -> vget (sv_hand s2) t = vget h2 t).

Lemma sim_step b1 b2 k1 k2 h1 h2 s1 s2 c1 c2 l d : (b1 <= 18)%nat -> (b2 <= 18)%nat -> sim b1 b2 k1 k2 h1 h2 s1 s2 ->
  Forall (fun p => (fst p < 9)%nat) l ->
  sv_hand c1 = fold_left (fun h p => vadd h (b1 + fst p) (snd p)) l (sv_hand s1) ->
  sv_hand c2 = fold_left (fun h p => vadd h (b2 + fst p) (snd p)) l (sv_hand s2) ->
  counts c1 = cadd (counts s1) d -> counts c2 = cadd (counts s2) d -> sim b1 b2 k1 k2 h1 h2 c1 c2.
Proof.
  intros B1 B2 (L1 & L2 & A & (e & E1 & E2) & O1 & O2) F H1 H2 D1 D2. unfold sim. rewrite H1, H2. clear H1 H2.
  assert (G : forall b h v, (b <= 18)%nat -> length v = 37%nat -> (forall t, outside b t -> vget v t = vget h t) ->
    let v' := fold_left (fun h p => vadd h (b + fst p) (snd p)) l v in
    length v' = 37%nat /\ (forall j, (j < 9)%nat -> vget v' (b + j) = vget v (b + j) + fold_right (fun p x => (if Nat.eqb (fst p) j then snd p else 0) + x) 0 l) /\
    (forall t, outside b t -> vget v' t = vget h t)).
  { clear - F. intros b h v B. revert v. induction F as [|[x y] l Hx _ IH]; intros v L O; cbn [fold_left fold_right fst snd]; [repeat split; auto; intros; lia|]. cbn [fst] in Hx.
    destruct (IH (vadd v (b + x) y)) as (P1 & P2 & P3).
    - now rewrite length_vadd.
    - intros t Ht. destruct (Nat.lt_ge_cases t 37) as [Q|Q].
      + rewrite vget_vadd by lia. destruct (Nat.eqb_spec (b + x) t); [unfold outside in Ht; lia|]. rewrite Z.add_0_r. now apply O.
      + rewrite <- (O t Ht). unfold vget. rewrite !nth_overflow; rewrite ?length_vadd; lia || reflexivity.
    - split; [exact P1|]. split; [|exact P3]. intros j Hj. rewrite P2 by exact Hj. rewrite vget_vadd by lia.
      destruct (Nat.eqb_spec (b + x) (b + j)); destruct (Nat.eqb_spec x j); lia. }
  destruct (G b1 h1 _ B1 L1 O1) as (P1 & P2 & P3). destruct (G b2 h2 _ B2 L2 O2) as (R1 & R2 & R3). repeat (split; [assumption|]).
  split; [intros j Hj; rewrite P2, R2, A by exact Hj; reflexivity|]. split; [|auto].
  exists (cadd e d). rewrite D1, D2, E1, E2. unfold cadd. cbn. split; f_equal; lia.
Qed.

Lemma taatsu2_hand i s : length (sv_hand s) = 37%nat -> (i < 27)%nat -> sv_hand (add_taatsu i 2 s) = vadd (vadd (sv_hand s) i (-1)) (i + 1) (-1).
Proof.
  intros L I. cbn [add_taatsu sv_hand]. apply list_eq_vget; [now rewrite !length_vadd, length_vadds|]. intros k K. cbn [vadds fold_left] in *. rewrite !length_vadd in K.
  repeat rewrite vget_vadd by (rewrite ?length_vadd; exact K). repeat match goal with |- context [if ?c then _ else _] => destruct c end; lia.
Qed.

Section Sim.
  Context (q1 q2 : nat) (k1 k2 : counters) (h1 h2 : list Z) (Q1 : (q1 <= 2)%nat) (Q2 : (q2 <= 2)%nat).
  Let b1 := (9 * q1)%nat.
  Let b2 := (9 * q2)%nat.
  Notation sim_ := (sim b1 b2 k1 k2 h1 h2).

  Lemma b1_le : (b1 <= 18)%nat. Proof. unfold b1. lia. Qed.
  Lemma b2_le : (b2 <= 18)%nat. Proof. unfold b2. lia. Qed.
  Lemma mod1 i : (i < 9)%nat -> Nat.modulo (b1 + i) 9 = i.
  Proof. intros H. unfold b1. rewrite Nat.mul_comm, Nat.add_comm, Nat.mod_add by lia. now apply Nat.mod_small. Qed.
  Lemma mod2 i : (i < 9)%nat -> Nat.modulo (b2 + i) 9 = i.
  Proof. intros H. unfold b2. rewrite Nat.mul_comm, Nat.add_comm, Nat.mod_add by lia. now apply Nat.mod_small. Qed.

  Ltac go i l d := intros H Hi; apply (sim_step b1 b2 k1 k2 h1 h2 _ _ _ _ l d b1_le b2_le H);
    [repeat (apply Forall_cons; [cbn [fst]; lia|]); apply Forall_nil | cbn [sv_hand add_shuntsu add_koutsu add_toitsu add_taatsu add_kuttsuki vadds fold_left fst snd]; rewrite ?Nat.add_assoc; reflexivity
    |cbn [sv_hand add_shuntsu add_koutsu add_toitsu add_taatsu add_kuttsuki vadds fold_left fst snd]; rewrite ?Nat.add_assoc; reflexivity
    |unfold counts, cadd; cbn; f_equal; try lia|unfold counts, cadd; cbn; f_equal; try lia].

  Lemma sim_koutsu s1 s2 i : sim_ s1 s2 -> (i < 9)%nat -> sim_ (add_koutsu (b1 + i) s1) (add_koutsu (b2 + i) s2).
  Proof. go i [(i, -3)] (MkC 1 0 0 0). Qed.
  Lemma sim_toitsu s1 s2 i : sim_ s1 s2 -> (i < 9)%nat -> sim_ (add_toitsu (b1 + i) s1) (add_toitsu (b2 + i) s2).
  Proof. go i [(i, -2)] (MkC 0 0 1 0). Qed.
  Lemma sim_kuttsuki t s1 s2 i : sim_ s1 s2 -> (i < 9)%nat -> sim_ (add_kuttsuki (b1 + i) t s1) (add_kuttsuki (b2 + i) t s2).
  Proof. destruct t; [go i [(i, -1)] (MkC 0 0 0 1)|go i [(i, -1)] (MkC 0 0 0 0)]. Qed.
  Lemma sim_shuntsu s1 s2 i : sim_ s1 s2 -> (i < 7)%nat -> sim_ (add_shuntsu (b1 + i) s1) (add_shuntsu (b2 + i) s2).
  Proof. go i [(i, -1); ((i + 1)%nat, -1); ((i + 2)%nat, -1)] (MkC 1 0 0 0). Qed.
  Lemma sim_taatsu1 s1 s2 i : sim_ s1 s2 -> (i < 7)%nat -> sim_ (add_taatsu (b1 + i) 1 s1) (add_taatsu (b2 + i) 1 s2).
  Proof. go i [(i, -1); ((i + 1)%nat, -1); ((i + 2)%nat, -1); ((i + 1)%nat, 1)] (MkC 0 1 0 0). Qed.
  Lemma sim_taatsu2 s1 s2 i : sim_ s1 s2 -> (i < 8)%nat -> sim_ (add_taatsu (b1 + i) 2 s1) (add_taatsu (b2 + i) 2 s2).
  Proof.
    intros H Hi. pose proof H as (L1 & L2 & _). pose proof b1_le. pose proof b2_le.
    apply (sim_step b1 b2 k1 k2 h1 h2 _ _ _ _ [(i, -1); ((i + 1)%nat, -1)] (MkC 0 1 0 0) b1_le b2_le H);
    [repeat (apply Forall_cons; [cbn [fst]; lia|]); apply Forall_nil|rewrite taatsu2_hand by (assumption || lia); cbn [fold_left fst snd]; rewrite ?Nat.add_assoc; reflexivity
    |rewrite taatsu2_hand by (assumption || lia); cbn [fold_left fst snd]; rewrite ?Nat.add_assoc; reflexivity|unfold counts, cadd; cbn; f_equal; lia|unfold counts, cadd; cbn; f_equal; lia].
  Qed.

  Lemma sim_get s1 s2 j : sim_ s1 s2 -> (j < 9)%nat -> vget (sv_hand s1) (b1 + j) = vget (sv_hand s2) (b2 + j).
  Proof. intros (_ & _ & A & _). apply A. Qed.

  Lemma sim_ps t s1 s2 i : sim_ s1 s2 -> (i < 9)%nat -> Forall2 sim_ (ps_branches (b1 + i) t s1) (ps_branches (b2 + i) t s2).
  Proof.
    intros H Hi. unfold ps_branches. rewrite mod1, mod2 by assumption. rewrite <- !Nat.add_assoc. apply Forall2_app; [|apply Forall2_app].
    - destruct (Nat.ltb_spec i 7); cbn [andb]; [|constructor]. rewrite <- (sim_get s1 s2 (i + 2) H) by lia. rewrite <- (sim_get s1 s2 (i + 1) H) by lia.
      destruct (truthy (vget (sv_hand s1) (b1 + (i + 2)))); [|constructor]. apply Forall2_app; [|constructor; [now apply sim_taatsu1|constructor]].
      destruct (truthy (vget (sv_hand s1) (b1 + (i + 1)))); [|constructor]. constructor; [now apply sim_shuntsu|constructor].
    - destruct (Nat.ltb_spec i 8); cbn [andb]; [|constructor]. rewrite <- (sim_get s1 s2 (i + 1) H) by lia.
      destruct (truthy (vget (sv_hand s1) (b1 + (i + 1)))); [|constructor]. constructor; [now apply sim_taatsu2|constructor].
    - constructor; [now apply sim_kuttsuki|constructor].
  Qed.

  Definition sim_at (p1 p2 : nat * sv) : Prop := exists x, (x <= 9)%nat /\ fst p1 = (b1 + x)%nat /\ fst p2 = (b2 + x)%nat /\ sim_ (snd p1) (snd p2).

  Lemma sim_branches s1 s2 i : sim_ s1 s2 -> (i < 9)%nat -> Forall2 sim_at (branches (b1 + i) s1) (branches (b2 + i) s2).
  Proof.
    intros H Hi.
    assert (M : forall t u v, sim_ u v -> Forall2 sim_at (map (pair (b1 + i)%nat) (ps_branches (b1 + i) t u)) (map (pair (b2 + i)%nat) (ps_branches (b2 + i) t v))).
    { intros t u v S. pose proof (sim_ps t u v i S Hi) as F. clear - F Hi. induction F as [|x y l l' S _ IH]; cbn [map]; constructor; [|exact IH].
      exists i. cbn [fst snd]. split; [lia|]. auto. }
    assert (N : forall u v, sim_ u v -> sim_at (S (b1 + i), u) (S (b2 + i), v)) by (intros u v Huv; exists (S i); cbn [fst snd]; split; [lia|]; split; [lia|]; split; [lia|exact Huv]).
    unfold branches. rewrite <- (sim_get s1 s2 i H Hi).
    destruct (vget (sv_hand s1) (b1 + i) =? 4).
    { apply Forall2_app; [apply M; now apply sim_koutsu|]. constructor; [apply N; now apply sim_koutsu|]. apply M. now apply sim_toitsu. }
    destruct (vget (sv_hand s1) (b1 + i) =? 3).
    { constructor; [apply N; now apply sim_koutsu|]. constructor; [|constructor]. exists i. cbn [fst snd]. split; [lia|]. repeat (split; [reflexivity|]). now apply sim_toitsu. }
    destruct (vget (sv_hand s1) (b1 + i) =? 2); [constructor; [apply N; now apply sim_toitsu|now apply M]|].
    destruct (vget (sv_hand s1) (b1 + i) =? 1); [now apply M|constructor].
  Qed.

  Lemma Forall2_in_l {A B} (P : A -> B -> Prop) l l' x : Forall2 P l l' -> In x l -> exists y, In y l' /\ P x y.
  Proof. induction 1 as [|a b l l' Hab _ IH]; intros I; [destruct I|]; destruct I as [I|I]; [subst; exists b; split; [now left|exact Hab]|destruct (IH I) as (y & Y & P'); exists y; split; [now right|exact P']]. Qed.

  Lemma transport x s1 s1' : Reach_to (b1 + 9) (b1 + x) s1 s1' -> (x <= 9)%nat -> forall s2, sim_ s1 s2 -> exists s2', Reach_to (b2 + 9) (b2 + x) s2 s2' /\ sim_ s1' s2'.
  Proof.
    remember (b1 + x)%nat as idx eqn:E. intros R. revert x E. induction R as [idx s L Z|idx i s j c s' Hi Z N B R IH]; intros x -> Hx s2 H.
    - exists s2. split; [|exact H]. constructor; [lia|]. intros k K. replace k with (b2 + (k - b2))%nat by lia. rewrite <- (sim_get s s2 (k - b2) H) by lia. apply Z. lia.
    - assert (Ei : exists y, i = (b1 + y)%nat /\ (x <= y < 9)%nat) by (exists (i - b1)%nat; lia). destruct Ei as (y & -> & Hy).
      destruct (Forall2_in_l _ _ _ _ (sim_branches s s2 y H ltac:(lia)) B) as ([j2 c2] & B2 & z & Hz & Ej & Ej2 & S). cbn [fst snd] in *.
      destruct (IH z Ej Hz c2 S) as (s2' & R2 & S2). exists s2'. split; [|exact S2]. apply (To_step _ _ (b2 + y) s2 j2 c2 s2'); [lia| | |exact B2|rewrite Ej2; exact R2].
      + intros k K. replace k with (b2 + (k - b2))%nat by lia. rewrite <- (sim_get s s2 (k - b2) H) by lia. apply Z. lia.
      + rewrite <- (sim_get s s2 y H) by lia. exact N.
  Qed.
End Sim.

(** ** Contributions *)
Definition czero : counters := MkC 0 0 0 0.
(** A state that holds [g] in its first suit *)
Definition alone (g : nat -> Z) : sv := mkSv (map (fun t => if Nat.ltb t 9 then g t else 0) (seq 0 37)) 0 0 0 0 0 0.
Definition contributes (g : nat -> Z) (d : counters) : Prop := exists s', Reach_to 9 0 (alone g) s' /\ counts s' = d.

Lemma alone_hand g j : (j < 9)%nat -> vget (sv_hand (alone g)) j = g j.
Proof.
  intros H. unfold alone, vget. cbn [sv_hand]. rewrite (nth_indep _ 0 (if Nat.ltb 0 9 then g 0%nat else 0)) by (rewrite map_length, seq_length; lia).
  rewrite (map_nth (fun t => if Nat.ltb t 9 then g t else 0) (seq 0 37) 0%nat j), seq_nth by lia. cbn [Nat.add]. destruct (Nat.ltb_spec j 9); [reflexivity|lia].
Qed.
Lemma alone_length g : length (sv_hand (alone g)) = 37%nat.
Proof. unfold alone. cbn [sv_hand]. now rewrite map_length, seq_length. Qed.
Lemma cadd_inv a b c d : cadd a b = cadd c d -> a = c -> b = d.
Proof. intros H ->. destruct b, d, c. unfold cadd in H. cbn in H. injection H as ? ? ? ?. f_equal; lia. Qed.

Lemma suit_from q s s' g : (q <= 2)%nat -> length (sv_hand s) = 37%nat -> (forall j, (j < 9)%nat -> vget (sv_hand s) (9 * q + j) = g j) ->
  Reach_to (9 * q + 9) (9 * q) s s' -> exists d, contributes g d /\ counts s' = cadd (counts s) d /\ length (sv_hand s') = 37%nat /\
    forall t, outside (9 * q) t -> vget (sv_hand s') t = vget (sv_hand s) t.
Proof.
  intros Hq L G R. assert (S : sim (9 * q) (9 * 0) (counts s) czero (sv_hand s) (sv_hand (alone g)) s (alone g)).
  { split; [exact L|]. split; [apply alone_length|]. split; [intros j Hj; rewrite G by exact Hj; now rewrite alone_hand|]. split; [|auto].
    exists czero. split; [|reflexivity]. unfold cadd, counts, czero. cbn. f_equal; lia. }
  assert (R' : Reach_to (9 * q + 9) (9 * q + 0) s s') by (rewrite Nat.add_0_r; exact R). assert (H0 : (0 <= 2)%nat) by lia. assert (H9 : (0 <= 9)%nat) by lia.
  destruct (transport q 0 (counts s) czero (sv_hand s) (sv_hand (alone g)) Hq H0 0 s s' R' H9 (alone g) S) as (s2 & R2 & (L1 & _ & _ & (d & D1 & D2) & O & _)).
  exists d. split; [|auto]. exists s2. split; [exact R2|]. rewrite D2. unfold cadd, czero. destruct d. cbn. f_equal; lia.
Qed.

Lemma suit_to q s g d : (q <= 2)%nat -> length (sv_hand s) = 37%nat -> (forall j, (j < 9)%nat -> vget (sv_hand s) (9 * q + j) = g j) -> contributes g d ->
  exists s', Reach_to (9 * q + 9) (9 * q) s s' /\ counts s' = cadd (counts s) d /\ length (sv_hand s') = 37%nat /\ forall t, outside (9 * q) t -> vget (sv_hand s') t = vget (sv_hand s) t.
Proof.
  intros Hq L G (sa & R & D). assert (S : sim (9 * 0) (9 * q) czero (counts s) (sv_hand (alone g)) (sv_hand s) (alone g) s).
  { split; [apply alone_length|]. split; [exact L|]. split; [intros j Hj; rewrite G by exact Hj; now rewrite alone_hand|]. split; [|auto].
    exists czero. split; [reflexivity|]. unfold cadd, counts, czero. cbn. f_equal; lia. }
  assert (H0 : (0 <= 2)%nat) by lia. assert (H9 : (0 <= 9)%nat) by lia.
  destruct (transport 0 q czero (counts s) (sv_hand (alone g)) (sv_hand s) H0 Hq 0 (alone g) sa R H9 s S) as (s2 & R2 & (_ & L2 & _ & (e & D1 & D2) & _ & O)).
  exists s2. rewrite Nat.add_0_r in R2. split; [exact R2|]. split; [|auto]. rewrite D2. f_equal. rewrite <- D, D1. unfold cadd, czero. destruct e. cbn. f_equal; lia.
Qed.

Definition suit (h : list Z) (q : nat) (j : nat) : Z := vget h (9 * q + j).

(** The counters at the leaves are the initial ones plus one contribution of each suit. *)
Theorem leaves s c : length (sv_hand s) = 37%nat ->
  (exists s', Reach 0 s s' /\ counts s' = c) <->
  exists d0 d1 d2, contributes (suit (sv_hand s) 0) d0 /\ contributes (suit (sv_hand s) 1) d1 /\ contributes (suit (sv_hand s) 2) d2 /\
    c = cadd (cadd (cadd (counts s) d0) d1) d2.
Proof.
  intros L. assert (O1 : forall j, (j < 9)%nat -> outside (9 * 0) (9 * 1 + j) /\ outside (9 * 0) (9 * 2 + j) /\ outside (9 * 1) (9 * 2 + j)) by (intros j J; unfold outside; lia). split.
  - intros (s' & R & <-). apply reach_27 in R. apply (split_at 9) in R as (m & R0 & R); [|lia]. apply (split_at 18) in R as (m' & R1 & R2); [|lia].
    destruct (suit_from 0 s m (suit (sv_hand s) 0) ltac:(lia) L (fun _ _ => eq_refl) R0) as (d0 & C0 & E0 & L0 & K0).
    destruct (suit_from 1 m m' (suit (sv_hand s) 1) ltac:(lia) L0) as (d1 & C1 & E1 & L1 & K1); [intros j J; apply K0, O1, J|exact R1|].
    destruct (suit_from 2 m' s' (suit (sv_hand s) 2) ltac:(lia) L1) as (d2 & C2 & E2 & _); [intros j J; rewrite K1 by (apply O1, J); apply K0, O1, J|exact R2|].
    exists d0, d1, d2. repeat (split; [assumption|]). now rewrite E2, E1, E0.
  - intros (d0 & d1 & d2 & C0 & C1 & C2 & ->).
    destruct (suit_to 0 s (suit (sv_hand s) 0) d0 ltac:(lia) L (fun _ _ => eq_refl) C0) as (m & R0 & E0 & L0 & K0).
    destruct (suit_to 1 m (suit (sv_hand s) 1) d1 ltac:(lia) L0) as (m' & R1 & E1 & L1 & K1); [intros j J; apply K0, O1, J|exact C1|].
    destruct (suit_to 2 m' (suit (sv_hand s) 2) d2 ltac:(lia) L1) as (s' & R2 & E2 & _); [intros j J; rewrite K1 by (apply O1, J); apply K0, O1, J|exact C2|].
    exists s'. split; [|now rewrite E2, E1, E0]. apply reach_27. apply (join_at 9 27 0 s m s'); [lia|exact R0|]. apply (join_at 18 27 9 m m' s'); [lia|exact R1|exact R2].
Qed.
