(** Properties C81, C82: the numbers of ShantenSolver as distances.  [missing],
    [physical], [kinds]: SpecDistance.v; complete hands: SpecShanten.v. *)
From Coq Require Import ZArith List Bool Lia Arith.
From Verif Require Import Base Constants VecLemmas Shanten SpecShanten SpecDistance ShantenSearch ShantenLemmas ShantenWins ShantenDistance ShantenDistance2.
Import ListNotations.
Open Scope Z_scope.

(** ** C81: the standard number is the distance to a standard win. *)

(** The number is never too low: there is a complete standard hand at most that many
    draws from a waiting hand, if copies are unlimited.  (What is missing: that no
    complete hand is nearer, and that at most four copies are used; both are false.) *)
Theorem C81_reachable_partial : forall h m, plain_hand h -> (m <= 4)%nat ->
  total h = 14 - 3 * Z.of_nat m \/ total h = 13 - 3 * Z.of_nat m ->
  exists s w, solve_normal 140 0 (sv_init h) = Some s /\ standard_win w (4 - m) /\ missing h w <= sv_best s + 1.
Proof.
  intros h m P M T. pose proof P as (L & _). destruct (normal_ok h L) as [E V].
  destruct (proj1 (V (normal_value h)) (Z.le_refl _)) as [Q|(s' & R & Q)].
  - destruct (complete_leaf h m 0 0 0 [] [] [] P M T eq_refl eq_refl eq_refl) as (w & W1 & W2); try constructor.
    + intros t I. cbn. apply P, I.
    + exists (set_best (sv_init h) (normal_value h)), w. split; [exact E|]. split; [exact W1|]. cbn [sv_best set_best]. lia.
  - destruct (leaf_distance h m s' P M T R) as (w & W1 & W2).
    exists (set_best (sv_init h) (normal_value h)), w. split; [exact E|]. split; [exact W1|]. cbn [sv_best set_best]. lia.
Qed.
Print Assumptions C81_reachable_partial.

Ltac plain := split; [reflexivity|]; split; intros t T;
  [do 34 (destruct t as [|t]; [cbn; lia|]); lia|do 37 (destruct t as [|t]; [cbn; lia|]); destruct t; reflexivity].

(** 11m 34m 777m 88m 99m with one meld: one tile from complete, reported as two *)
Definition high_hand : list Z := [2; 0; 1; 1; 0; 0; 3; 2; 2] ++ repeat 0 28.
Definition high_win : list Z := [2; 0; 1; 1; 1; 0; 2; 2; 2] ++ repeat 0 28.
Theorem C81_refuted_too_high : exists h w s, plain_hand h /\ total h = 14 - 3 * 1 /\ physical w /\ standard_win w 3 /\ missing h w = 1 /\
  solve_normal 140 0 (sv_init h) = Some s /\ sv_best s = 1.
Proof.
  assert (E : option_map sv_best (solve_normal 140 0 (sv_init high_hand)) = Some 1) by (vm_compute; reflexivity).
  destruct (solve_normal 140 0 (sv_init high_hand)) as [s|] eqn:S; [|discriminate E]. cbn [option_map] in E. injection E as E.
  exists high_hand, high_win, s. split; [plain|]. split; [reflexivity|]. split; [|split; [|split; [reflexivity|split; [exact S|exact E]]]].
  - intros t T. do 34 (destruct t as [|t]; [cbn; lia|]). lia.
  - exists [Run 2; Run 6; Run 6], 0%nat. split; [reflexivity|]. split; [|split; [lia|]].
    + repeat (constructor; [cbn; lia|]). constructor.
    + intros t T. do 34 (destruct t as [|t]; [reflexivity|]). lia.
Qed.
Print Assumptions C81_refuted_too_high.

(** 1111z 2222z 3333z 44z: reported as two from complete; it is three *)
Definition low_hand : list Z := repeat 0 27 ++ [4; 4; 4; 2; 0; 0; 0; 0; 0; 0].
Theorem C81_refuted_too_low : exists h s, plain_hand h /\ total h = 14 /\
  solve_normal 140 0 (sv_init h) = Some s /\ sv_best s = 1 /\
  forall w, physical w -> standard_win w 4 -> 3 <= missing h w.
Proof.
  assert (E : option_map sv_best (solve_normal 140 0 (sv_init low_hand)) = Some 1) by (vm_compute; reflexivity).
  destruct (solve_normal 140 0 (sv_init low_hand)) as [s|] eqn:S; [|discriminate E]. cbn [option_map] in E. injection E as E.
  exists low_hand, s. split; [plain|]. split; [reflexivity|]. split; [exact S|]. split; [exact E|].
  intros w Ph W. apply honours_apart in W as (T & H); [|exact Ph]. rewrite missing_S34.
  assert (Q : S34 (fun t => nth t w 0 + - (if Nat.eqb t 27 then 3 else 0) + - (if Nat.eqb t 28 then 3 else 0) + - (if Nat.eqb t 29 then 3 else 0) + - (if Nat.eqb t 30 then 2 else 0))
    <= S34 (fun t => Z.max 0 (nth t w 0 - nth t low_hand 0))).
  { apply S34_le. intros t I. destruct (Nat.lt_ge_cases t 27) as [K|K].
    - rewrite !(proj2 (Nat.eqb_neq t _)) by lia. unfold low_hand. rewrite app_nth1, nth_repeat by (rewrite repeat_length; lia). lia.
    - specialize (H t ltac:(lia)). do 34 (destruct t as [|t]; [try lia; cbn [Nat.eqb low_hand repeat app nth]; lia|]). lia. }
  rewrite !S34_add, !S34_opp, !S34_at, T in Q by lia. lia.
Qed.
Print Assumptions C81_refuted_too_low.

(** 123m 456m 78m 11z 55p (13 tiles): waiting, and one draw completes it *)
Definition tenpai_hand : list Z := [1; 1; 1; 1; 1; 1; 1; 1; 0] ++ [0; 0; 0; 0; 2] ++ repeat 0 13 ++ [3] ++ repeat 0 9.
Example C81_example : plain_hand tenpai_hand /\ total tenpai_hand = 13 - 3 * 0 /\ option_map sv_best (solve_normal 140 0 (sv_init tenpai_hand)) = Some 0.
Proof. split; [plain|]. split; [reflexivity|]. vm_compute. reflexivity. Qed.

(** ** C82: the numbers for seven pairs and thirteen orphans are distances. *)

(** Seven pairs: no such hand is nearer than the number says ... *)
Theorem C82_pairs_never_too_high : forall h w, plain_hand h -> seven_pairs w ->
  sv_best (solve_chitoitsu (sv_init h)) + 1 <= missing h w.
Proof.
  intros h w P W. pose proof (pairs_lower h w P W). cbn [solve_chitoitsu set_best sv_best sv_hand sv_init]. lia.
Qed.
Print Assumptions C82_pairs_never_too_high.

(** ... and the distance is exactly the number plus one for each type short of seven, so
    the number is the distance as soon as the hand has seven different types. *)
Theorem C82_pairs_distance_partial : forall h, plain_hand h -> total h <= 14 ->
  let far := sv_best (solve_chitoitsu (sv_init h)) + 1 + Z.max 0 (7 - Z.of_nat (kinds h)) in
  (forall w, seven_pairs w -> far <= missing h w) /\
  exists w, physical w /\ seven_pairs w /\ total w = 14 /\ missing h w = far.
Proof.
  intros h P T far. assert (E : far = 7 - Z.of_nat (doubles h) + Z.max 0 (7 - Z.of_nat (kinds h))).
  { subst far. change (sv_best (solve_chitoitsu (sv_init h))) with (Z.min 14 (6 - sum_ge h 2)). rewrite (sum_ge_doubles h P). lia. }
  rewrite E. clearbody far. clear far E. split; [|exact (pairs_near h P T)].
  intros w W. destruct (pairs_far h w P W). lia.
Qed.
Print Assumptions C82_pairs_distance_partial.

(** 1111m 2222m 3333m 44m: reported as three from seven pairs; it is six *)
Definition quads_hand : list Z := [4; 4; 4; 2] ++ repeat 0 33.
Theorem C82_refuted : exists h, plain_hand h /\ total h = 14 /\ sv_best (solve_chitoitsu (sv_init h)) + 1 = 3 /\
  forall w, seven_pairs w -> 6 <= missing h w.
Proof.
  exists quads_hand. split; [plain|]. split; [reflexivity|]. split; [reflexivity|]. intros w W.
  apply seven_total in W as (T & H). rewrite missing_S34.
  assert (Q : S34 (fun t => nth t w 0 + - (if Nat.eqb t 0 then 2 else 0) + - (if Nat.eqb t 1 then 2 else 0) + - (if Nat.eqb t 2 then 2 else 0) + - (if Nat.eqb t 3 then 2 else 0))
    <= S34 (fun t => Z.max 0 (nth t w 0 - nth t quads_hand 0))).
  { apply S34_le. intros t I. specialize (H t I). do 4 (destruct t as [|t]; [cbn [Nat.eqb quads_hand repeat app nth]; lia|]).
    cbn [Nat.eqb]. change (nth (S (S (S (S t)))) quads_hand 0) with (nth t (repeat 0 33) 0). rewrite nth_repeat. lia. }
  rewrite !S34_add, !S34_opp, !S34_at in Q by lia. lia.
Qed.
Print Assumptions C82_refuted.

(** Thirteen orphans: with [m] the most copies held of one orphan, the number is the
    distance for [m] = 1 or 2, one too high for [m] = 0 and [m - 2] too low above. *)
Theorem C82_orphans_distance_partial : forall h m, plain_hand h ->
  (forall d, In d orphans -> nth d h 0 <= m) -> (exists d, In d orphans /\ nth d h 0 = m) ->
  let far := sv_best (solve_kokushi (sv_init h)) + 1 + (if m =? 0 then -1 else Z.max 0 (m - 2)) in
  (forall w, thirteen_orphans w -> far <= missing h w) /\
  exists w, physical w /\ thirteen_orphans w /\ missing h w = far.
Proof.
  intros h m P U X far. destruct (orphans_both h P) as (m' & U' & X' & A & B & Em).
  assert (m' = m) as -> by (destruct X as (d & D & X), X' as (d' & D' & X'); pose proof (U d' D'); pose proof (U' d D); lia).
  assert (N : 0 <= m) by (destruct X as (d & D & X); rewrite <- X; apply P, orphans_lt, D).
  assert (E : far = 14 - Z.of_nat (length (present h)) - (if 2 <=? m then 1 else 0)).
  { subst far. change (sv_best (solve_kokushi (sv_init h))) with (Z.min 14 (13 - sum_ge (yaochu_arr h) 1 - (py_max (yaochu_arr h) - 1))).
    rewrite (kokushi_types h P), Em. destruct (Z.eqb_spec m 0), (Z.leb_spec 2 m); lia. }
  rewrite E. exact (conj A B).
Qed.
Print Assumptions C82_orphans_distance_partial.

(** 11m 2m 55m 99m 99s 11z 22z *)
Example C82_example : plain_hand script /\ (7 <= kinds script)%nat /\ total script = 13 /\ sv_best (solve_chitoitsu (sv_init script)) = 0 /\
  sv_best (solve_kokushi (sv_init script)) = 7 /\ (forall d, In d orphans -> nth d script 0 <= 2).
Proof.
  split; [plain|]. split; [vm_compute; repeat constructor|]. split; [reflexivity|]. split; [reflexivity|]. split; [reflexivity|].
  intros d D. repeat (destruct D as [<-|D]; [cbn; lia|]). destruct D.
Qed.
