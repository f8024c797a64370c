(** The suit search only looks at the 27 suit types; consequences for red markers and fuel. *)
From Coq Require Import ZArith List Bool Lia Arith Permutation.
From Verif Require Import Base Constants VecLemmas Shanten SpecShanten ShantenSearch ShantenLemmas ShantenWins.
Import ListNotations.
Open Scope Z_scope.

Lemma fuel_irrelevant h f : length h = 37%nat -> (140 <= f)%nat ->
  solve_normal f 0 (sv_init h) = solve_normal 140 0 (sv_init h).
Proof.
  intros L F. rewrite <- (set_best_id (sv_init h)).
  assert (B1 : (mu 0 (sv_hand (sv_init h)) < 140)%nat) by apply mu_bound.
  rewrite (solve_pure f) by (exact L || lia). rewrite (solve_pure 140) by (exact L || lia).
  f_equal. f_equal. apply Z.le_antisymm.
  - apply (pure_le f); [exact L|lia|lia|]. apply (pure_le 140); [exact L|lia|lia|]. lia.
  - apply (pure_le 140); [exact L|lia|lia|]. apply (pure_le f); [exact L|lia|lia|]. lia.
Qed.

Definition sim (s u : sv) : Prop :=
  length (sv_hand s) = 37%nat /\ length (sv_hand u) = 37%nat /\
  (forall t, (t < 27)%nat -> vget (sv_hand s) t = vget (sv_hand u) t) /\
  sv_mentsu s = sv_mentsu u /\ sv_taatsu s = sv_taatsu u /\ sv_toitsu s = sv_toitsu u /\ sv_tune s = sv_tune u.

Ltac simstep L1 L2 H := repeat split; try hl; try (fields; cbn [sv_tune]; lia);
  intros t T; specialize (H t T).

Lemma sim_koutsu i s u : sim s u -> sim (add_koutsu i s) (add_koutsu i u).
Proof.
  intros (L1 & L2 & H & A & B & C & D). repeat split; try hl; try (fields; lia); try exact D.
  intros t T. rewrite !hand_koutsu, H by assumption. reflexivity.
Qed.
Lemma sim_toitsu i s u : sim s u -> sim (add_toitsu i s) (add_toitsu i u).
Proof.
  intros (L1 & L2 & H & A & B & C & D). repeat split; try hl; try (fields; lia); try exact D.
  intros t T. rewrite !hand_toitsu, H by assumption. reflexivity.
Qed.
Lemma sim_shuntsu i s u : sim s u -> sim (add_shuntsu i s) (add_shuntsu i u).
Proof.
  intros (L1 & L2 & H & A & B & C & D). repeat split; try hl; try (fields; lia); try exact D.
  intros t T. rewrite !hand_run, H by assumption. reflexivity.
Qed.
Lemma sim_taatsu1 i s u : sim s u -> sim (add_taatsu i 1 s) (add_taatsu i 1 u).
Proof.
  intros (L1 & L2 & H & A & B & C & D). repeat split; try hl; try (fields; lia); try exact D.
  intros t T. rewrite !hand_taatsu1, H by assumption. reflexivity.
Qed.
Lemma sim_taatsu2 i s u : sim s u -> sim (add_taatsu i 2 s) (add_taatsu i 2 u).
Proof.
  intros (L1 & L2 & H & A & B & C & D). repeat split; try hl; try (fields; lia); try exact D.
  intros t T. rewrite !hand_taatsu2, H by assumption. reflexivity.
Qed.
Lemma sim_kuttsuki i b s u : sim s u -> sim (add_kuttsuki i b s) (add_kuttsuki i b u).
Proof.
  intros (L1 & L2 & H & A & B & C & D). repeat split; try hl; try (fields; lia).
  - intros t T. rewrite !hand_kuttsuki, H by assumption. reflexivity.
  - cbn [add_kuttsuki sv_tune]. destruct b; lia.
Qed.

Lemma sim_ps i b s u : (i < 27)%nat -> sim s u -> Forall2 sim (ps_branches i b s) (ps_branches i b u).
Proof.
  intros I S. pose proof S as (L1 & L2 & H & _). unfold ps_branches.
  repeat apply Forall2_app.
  - destruct (Nat.ltb_spec (Nat.modulo i 9) 7) as [Q|Q]; cbn [andb]; [|constructor].
    pose proof (run_fits i I ltac:(lia)) as F. rewrite !H by lia.
    destruct (truthy (vget (sv_hand u) (i + 2))); [|constructor].
    apply Forall2_app; [|constructor; [now apply sim_taatsu1|constructor]].
    destruct (truthy (vget (sv_hand u) (i + 1))); [|constructor]. constructor; [now apply sim_shuntsu|constructor].
  - destruct (Nat.ltb_spec (Nat.modulo i 9) 8) as [Q|Q]; cbn [andb]; [|constructor].
    pose proof (run_fits1 i I Q) as F. rewrite !H by lia.
    destruct (truthy (vget (sv_hand u) (i + 1))); [|constructor]. constructor; [now apply sim_taatsu2|constructor].
  - constructor; [now apply sim_kuttsuki|constructor].
Qed.

Definition simj (a b : nat * sv) : Prop := fst a = fst b /\ sim (snd a) (snd b).

Lemma simj_map i l l' : Forall2 sim l l' -> Forall2 simj (map (pair i) l) (map (pair i) l').
Proof. induction 1; constructor; [split; auto|assumption]. Qed.

Lemma sim_branches i s u : (i < 27)%nat -> sim s u -> Forall2 simj (branches i s) (branches i u).
Proof.
  intros I S. pose proof S as (L1 & L2 & H & _). unfold branches. rewrite H by exact I.
  destruct (vget (sv_hand u) i =? 4).
  { apply Forall2_app; [apply simj_map, sim_ps; [exact I|now apply sim_koutsu]|].
    cbn [app]. constructor; [split; [reflexivity|now apply sim_koutsu]|].
    apply simj_map, sim_ps; [exact I|now apply sim_toitsu]. }
  destruct (vget (sv_hand u) i =? 3).
  { constructor; [split; [reflexivity|now apply sim_koutsu]|]. constructor; [split; [reflexivity|now apply sim_toitsu]|constructor]. }
  destruct (vget (sv_hand u) i =? 2).
  { constructor; [split; [reflexivity|now apply sim_toitsu]|]. apply simj_map, sim_ps; assumption. }
  destruct (vget (sv_hand u) i =? 1); [|constructor]. apply simj_map, sim_ps; assumption.
Qed.

Lemma sim_skip n h h' idx : (forall t, (t < idx + n)%nat -> vget h t = vget h' t) -> skip n h idx = skip n h' idx.
Proof.
  revert idx; induction n as [|n IH]; intros idx H; [reflexivity|]. cbn [skip]. rewrite H by lia.
  destruct (truthy (vget h' idx)); [reflexivity|]. apply IH. intros t T. apply H. lia.
Qed.

Lemma sim_pure f : forall idx s u b, (idx <= 27)%nat -> sim s u -> pure f idx s b = pure f idx u b.
Proof.
  induction f as [|f IH]; intros idx s u b I S; [reflexivity|]. cbn [pure].
  pose proof S as (L1 & L2 & H & EM & ET & EP & EU).
  rewrite (sim_skip (27 - idx) (sv_hand s) (sv_hand u) idx) by (intros t T; apply H; lia).
  pose proof (skip_spec (27 - idx) (sv_hand u) idx) as SK. cbn zeta in SK. destruct SK as (Si & _ & _).
  set (i := skip (27 - idx) (sv_hand u) idx) in *. clearbody i.
  destruct (Nat.eqb_spec i 27) as [E|E].
  { unfold leaf_value. rewrite EM, ET, EP, EU. reflexivity. }
  assert (I' : (i < 27)%nat) by lia.
  assert (J : forall jc, In jc (branches i s) -> (fst jc <= 27)%nat).
  { intros [j c] B. destruct (branch_smaller i s j c L1 I' B) as (_ & Q & _). cbn. lia. }
  pose proof (sim_branches i s u I' S) as F. revert b. clear - IH F J.
  induction F as [|[j c] [j' c'] l l' [A B] F IHF]; intros b; [reflexivity|]. cbn [fold_left fst snd] in *. subst j'.
  rewrite (IH j c c' b) by (exact B || exact (J (j, c) (or_introl eq_refl))).
  apply IHF. intros jc I. apply J. now right.
Qed.

Lemma sim_normal h h' : sim (sv_init h) (sv_init h') -> normal_value h = normal_value h'.
Proof.
  intros S. pose proof S as (L1 & L2 & _). unfold normal_value.
  rewrite <- (set_best_id (sv_init h)), <- (set_best_id (sv_init h')).
  assert (B1 : (mu 0 (sv_hand (sv_init h)) < 140)%nat) by apply mu_bound.
  assert (B2 : (mu 0 (sv_hand (sv_init h')) < 140)%nat) by apply mu_bound.
  rewrite (solve_pure 140 0 (sv_init h)), (solve_pure 140 0 (sv_init h')) by (assumption || lia).
  rewrite !set_best_best. change (sv_best (sv_init h)) with 14. change (sv_best (sv_init h')) with 14.
  apply sim_pure; [lia|exact S].
Qed.

(** Clearing the red markers *)
Definition unmark (h : list Z) : list Z := firstn 34 h ++ [0; 0; 0].

Lemma reds_harmless h : length h = 37%nat -> vget h 34 = 0 -> 0 <= vget h 35 -> 0 <= vget h 36 ->
  vget h 35 <= 1 -> vget h 36 <= 1 -> vget h 35 + vget h 36 <= (14 - vsum (firstn 34 h)) mod 3 ->
  exists b s s', shanten h = Some (b, s) /\ shanten (unmark h) = Some (b, s').
Proof.
  intros L R0 R1 R2 R3 R4 T.
  assert (EH : exists l, length l = 34%nat /\ h = l ++ [vget h 34; vget h 35; vget h 36]).
  { exists (firstn 34 h). split; [rewrite firstn_length, L; reflexivity|].
    rewrite <- (firstn_skipn 34 h) at 1. f_equal.
    apply list_eq_vget; [rewrite skipn_length, L; reflexivity|]. intros k K. rewrite skipn_length, L in K. rewrite vget_skipn.
    do 3 (destruct k as [|k]; [reflexivity|]). lia. }
  destruct EH as (l & Ll & EH). set (a := vget h 35) in *. set (b := vget h 36) in *. rewrite R0 in EH. clearbody a b.
  assert (F : firstn 34 h = l) by (subst h; rewrite firstn_app, Ll, Nat.sub_diag, firstn_O, app_nil_r; apply firstn_all2; lia).
  assert (EU : unmark h = l ++ [0; 0; 0]) by (unfold unmark; now rewrite F). rewrite F in T.
  assert (LU : length (unmark h) = 37%nat) by (rewrite EU, app_length, Ll; reflexivity).
  assert (V27 : forall t, (t < 34)%nat -> vget h t = vget (unmark h) t).
  { intros t I. rewrite EU, EH. unfold vget. rewrite !app_nth1 by lia. reflexivity. }
  assert (SG : forall x, 2 <= x -> sum_ge h x = sum_ge (unmark h) x).
  { intros x X. rewrite EU, EH. unfold sum_ge. rewrite !map_app, !vsum_app. cbn [map vsum fold_right].
    rewrite (proj2 (Z.leb_gt x a)), (proj2 (Z.leb_gt x b)), (proj2 (Z.leb_gt x 0)) by lia. reflexivity. }
  assert (SK : skipn 27 h = skipn 27 l ++ [0; a; b]) by (rewrite EH, skipn_app, Ll; reflexivity).
  assert (SU : skipn 27 (unmark h) = skipn 27 l ++ [0; 0; 0]) by (rewrite EU, skipn_app, Ll; reflexivity).
  assert (N : normal_value h = normal_value (unmark h)).
  { apply sim_normal. split; [exact L|]. split; [exact LU|]. split; [intros t I; apply V27; lia|].
    cbn [sv_init sv_mentsu sv_taatsu sv_toitsu sv_tune]. split; [|split; [reflexivity|split; [|reflexivity]]].
    - rewrite SK, SU. unfold sum_ge. rewrite !map_app, !vsum_app. cbn [map vsum fold_right].
      rewrite (proj2 (Z.leb_gt 3 a)), (proj2 (Z.leb_gt 3 b)) by lia. cbn [b2z Z.leb Z.compare].
      f_equal. rewrite EU. rewrite EH at 1. rewrite !vsum_app. cbn [vsum fold_right].
      pose proof (Z.div_mod (14 - vsum l) 3 ltac:(lia)) as DM. pose proof (Z.mod_pos_bound (14 - vsum l) 3 ltac:(lia)) as MB.
      set (q := (14 - vsum l) / 3) in *. set (r := (14 - vsum l) mod 3) in *.
      replace ((14 - (vsum l + (0 + (a + (b + 0))))) / 3) with q
        by (apply (Z.div_unique _ 3 _ (r - a - b)); lia).
      apply (Z.div_unique _ 3 _ r); lia.
    - rewrite SK, SU. unfold sum_eq. rewrite !map_app, !vsum_app. cbn [map vsum fold_right].
      rewrite (proj2 (Z.eqb_neq a 2)), (proj2 (Z.eqb_neq b 2)) by lia. reflexivity. }
  assert (Y : yaochu_arr h = yaochu_arr (unmark h)).
  { apply list_eq_vget; [now rewrite !yaochu_len|]. intros k K. rewrite yaochu_len in K by exact L. rewrite !yaochu_at by assumption.
    destruct (Nat.lt_ge_cases k 34) as [Q|Q]; [rewrite V27 by exact Q; reflexivity|].
    assert (k = 34 \/ k = 35 \/ k = 36)%nat as [->|[->| ->]] by lia; [|reflexivity|reflexivity].
    rewrite EU, EH. unfold vget. rewrite !app_nth2, Ll by lia. reflexivity. }
  destruct (solve_ok h L) as (v & E & Ev). destruct (solve_ok (unmark h) LU) as (v' & E' & Ev').
  exists v, (set_best (sv_init h) v), (set_best (sv_init (unmark h)) v'). split; [exact E|].
  rewrite E'. f_equal. f_equal. rewrite Ev, Ev', N, Y, (SG 2) by lia. reflexivity.
Qed.
