(** Properties C62-C65: ShantenSolver. *)
From Coq Require Import ZArith List Bool Lia Arith.
From Verif Require Import Base Constants VecLemmas Shanten SpecShanten ShantenSearch ShantenLemmas ShantenWins ShantenReds ShantenMarked.
Import ListNotations.
Open Scope Z_scope.

(** ** C62: solve() terminates for every vector and leaves the hand and all the
    counters of the object as they were; only [best_shanten] changes.  The bound on
    the recursion is immaterial: any larger one gives the same result. *)
Theorem C62_restores : forall h, length h = 37%nat -> exists n s, shanten h = Some (n, s) /\
  sv_hand s = h /\ sv_best s = n /\ set_best s 14 = sv_init h.
Proof.
  intros h L. destruct (solve_ok h L) as (b & E & _). exists b, (set_best (sv_init h) b). repeat split. exact E.
Qed.
Print Assumptions C62_restores.

Theorem C62_terminates : forall h fuel, length h = 37%nat -> (140 <= fuel)%nat ->
  exists s, solve_normal fuel 0 (sv_init h) = Some s /\ solve_normal 140 0 (sv_init h) = Some s.
Proof.
  intros h f L F. rewrite (fuel_irrelevant h f L F). destruct (normal_ok h L) as [E _]. eexists. split; exact E.
Qed.
Print Assumptions C62_terminates.

(** the hand of the script at the end of shanten.py (seven pairs) *)
Definition script_hand : list Z := [0; 2; 2; 0; 2; 2; 2; 2; 2] ++ repeat 0 28.
Example C62_example : option_map fst (shanten script_hand) = Some (-1). Proof. vm_compute. reflexivity. Qed.

(** ** C63: on a hand of [14 - 3m] concealed tiles without red markers, the standard
    search reports -1 exactly for complete hands. *)
Theorem C63_standard_wins : forall h m, plain_hand h -> (m <= 4)%nat -> total h = 14 - 3 * Z.of_nat m ->
  exists s, solve_normal 140 0 (sv_init h) = Some s /\ -1 <= sv_best s /\
    (sv_best s = -1 <-> standard_win h (4 - m)).
Proof.
  intros h m P M T. pose proof P as (L & _). destruct (normal_ok h L) as [E _].
  destruct (normal_low h m P M T) as [A B]. exists (set_best (sv_init h) (normal_value h)). auto.
Qed.
Print Assumptions C63_standard_wins.

(** a hand whose only decomposition needs runs where triplets are also possible *)
Definition tricky_hand : list Z := [4; 4; 4; 2] ++ repeat 0 33.
Example C63_example_hand : plain_hand tricky_hand /\ total tricky_hand = 14 /\ standard_win tricky_hand 4.
Proof.
  split; [|split; [reflexivity|]].
  - split; [reflexivity|]. split; intros t T.
    + do 34 (destruct t as [|t]; [cbn; lia|]). lia.
    + do 37 (destruct t as [|t]; [cbn; lia|]). destruct t; reflexivity.
  - exists [Run 0; Run 0; Run 0; Run 0], 3%nat. split; [reflexivity|]. split; [|split; [lia|]].
    + repeat (constructor; [cbn; lia|]). constructor.
    + intros t T. do 34 (destruct t as [|t]; [reflexivity|]). lia.
Qed.
Example C63_example : option_map fst (shanten tricky_hand) = Some (-1). Proof. vm_compute. reflexivity. Qed.

(** ** C64: the returned number is -1 exactly for standard wins, seven pairs, and
    hands whose orphan types plus copies of one orphan add up to 15. *)
Theorem C64_exact : forall h m, plain_hand h -> (m <= 4)%nat -> total h = 14 - 3 * Z.of_nat m ->
  exists n s, shanten h = Some (n, s) /\ -1 <= n /\
    (n = -1 <-> standard_win h (4 - m) \/ seven_pairs h \/
       exists d, In d orphans /\ Z.of_nat (length (filter (fun t => 1 <=? nth t h 0) orphans)) + nth d h 0 = 15).
Proof.
  intros h m P M T. pose proof P as (L & _). destruct (solve_ok h L) as (b & E & V).
  destruct (normal_low h m P M T) as [A1 A2]. destruct (chitoi_low h m P T) as [B1 B2].
  pose proof (chitoi_found h P) as B3. destruct (kokushi_low h m P T) as [C1 C2].
  set (x := 13 - sum_ge (yaochu_arr h) 1 - (py_max (yaochu_arr h) - 1)) in *.
  exists b, (set_best (sv_init h) b). split; [exact E|]. split; [lia|]. split.
  - intros Q. assert (normal_value h = -1 \/ 6 - sum_ge h 2 = -1 \/ x = -1) as [W|[W|W]] by lia.
    + left. now apply A2.
    + right. left. now apply B2.
    + right. right. now apply C2.
  - intros [W|[W|W]].
    + apply A2 in W. lia.
    + apply B3 in W. lia.
    + apply C2 in W. lia.
Qed.
Print Assumptions C64_exact.

(** Every win is recognised. *)
Theorem C64_wins_found : forall h m, plain_hand h -> (m <= 4)%nat -> total h = 14 - 3 * Z.of_nat m ->
  standard_win h (4 - m) \/ seven_pairs h \/ thirteen_orphans h ->
  exists s, shanten h = Some (-1, s).
Proof.
  intros h m P M T W. destruct (C64_exact h m P M T) as (n & s & E & _ & I).
  assert (n = -1) as ->; [|now exists s]. apply I.
  destruct W as [W|[W|W]]; [now left|right; now left|right; right]. now apply kokushi_found.
Qed.
Print Assumptions C64_wins_found.

(** -1 means a win if no terminal or honour occurs three times or more (what is
    missing: with three or more copies the orphan count is wrong). *)
Theorem C64_partial : forall h m n s, plain_hand h -> (m <= 4)%nat -> total h = 14 - 3 * Z.of_nat m ->
  (forall d, In d orphans -> nth d h 0 <= 2) -> shanten h = Some (n, s) -> n = -1 ->
  standard_win h (4 - m) \/ seven_pairs h \/ thirteen_orphans h.
Proof.
  intros h m n s P M T D E N. destruct (C64_exact h m P M T) as (n' & s' & E' & _ & I).
  rewrite E in E'. injection E' as <- <-. apply I in N. destruct N as [W|[W|(d & O & W)]]; [now left|right; now left|right; right].
  apply (kokushi_real h d); auto. lia.
Qed.
Print Assumptions C64_partial.

(** three 1m, the other orphans except one: not a win, but reported as one *)
Definition false_orphans : list Z := [3; 0; 0; 0; 0; 0; 0; 0; 1; 1; 0; 0; 0; 0; 0; 0; 0; 1; 1; 0; 0; 0; 0; 0; 0; 0; 1; 1; 1; 1; 1; 1; 1; 0; 0; 0; 0].

Theorem C64_refuted : exists h s, plain_hand h /\ total h = 14 /\ shanten h = Some (-1, s) /\
  ~ standard_win h 4 /\ ~ seven_pairs h /\ ~ thirteen_orphans h.
Proof.
  assert (P : plain_hand false_orphans).
  { split; [reflexivity|]. split; intros t T.
    + do 34 (destruct t as [|t]; [cbn; lia|]). lia.
    + do 37 (destruct t as [|t]; [cbn; lia|]). destruct t; reflexivity. }
  assert (E : option_map fst (shanten false_orphans) = Some (-1)) by (vm_compute; reflexivity).
  assert (N : option_map sv_best (solve_normal 140 0 (sv_init false_orphans)) <> Some (-1)) by (vm_compute; discriminate).
  destruct (shanten false_orphans) as [[n s]|] eqn:S; [|discriminate E]. cbn in E. injection E as ->.
  exists false_orphans, s. split; [exact P|]. split; [reflexivity|]. split; [exact S|]. split; [|split].
  - intros W. destruct (C63_standard_wins false_orphans 0 P ltac:(lia) eq_refl) as (u & U & _ & I).
    apply I in W. rewrite U in N. cbn in N. rewrite W in N. apply N. reflexivity.
  - intros (W & _). destruct (W 0%nat ltac:(lia)) as [W0|W0]; discriminate W0.
  - intros (d & _ & W). pose proof (W 0%nat ltac:(lia)) as W0. cbn in W0. destruct d; discriminate W0.
Qed.
Print Assumptions C64_refuted.

(** ** C65: red markers.  Red fives of pinzu and souzu make no difference while the tiles
    leave room for them: one on 3k+1 tiles, two on 3k tiles.  The general claim is false. *)
Theorem C65_partial : forall h, length h = 37%nat ->
  nth 34 h 0 = 0 -> 0 <= nth 35 h 0 <= 1 -> 0 <= nth 36 h 0 <= 1 ->
  nth 35 h 0 + nth 36 h 0 <= (14 - total (firstn 34 h)) mod 3 ->
  exists n s s', shanten h = Some (n, s) /\ shanten (firstn 34 h ++ [0; 0; 0]) = Some (n, s').
Proof. intros h L R0 [R1 R2] [R3 R4] T. apply reds_harmless; assumption. Qed.
Print Assumptions C65_partial.

(** On the 14 - 3m tiles of a player to discard, any red marker hides every standard tenpai
    and win: the distance 0 or less is reported only without calls, for six or more pairs, or
    for orphans where the marker of the red 5m is counted as a kind. *)
Theorem C65_hidden_partial : forall h m, length h = 37%nat ->
  (forall t, (t < 34)%nat -> 0 <= nth t h 0 <= 4) -> total (firstn 34 h) = 14 - 3 * Z.of_nat m ->
  (forall r, In r [34; 35; 36]%nat -> 0 <= nth r h 0 <= 1) -> (exists r, In r [34; 35; 36]%nat /\ nth r h 0 = 1) ->
  exists n s, shanten h = Some (n, s) /\
    (n <= 0 -> m = 0%nat /\
     (6 <= Z.of_nat (length (filter (fun t => 2 <=? nth t h 0) (seq 0 34))) \/
      exists d, In d orphans /\
        14 <= Z.of_nat (length (filter (fun t => 1 <=? nth t h 0) orphans)) + nth 34 h 0 + nth d h 0)).
Proof.
  intros h m L B T R (r & I & E).
  set (l := firstn 34 h) in *. assert (Ll : length l = 34%nat) by (unfold l; rewrite firstn_length, L; reflexivity).
  assert (EH : h = l ++ [nth 34 h 0; nth 35 h 0; nth 36 h 0]).
  { unfold l. rewrite <- (firstn_skipn 34 h) at 1. f_equal.
    apply list_eq_vget; [rewrite skipn_length, L; reflexivity|]. intros k K. rewrite skipn_length, L in K. rewrite vget_skipn.
    do 3 (destruct k as [|k]; [reflexivity|]). lia. }
  pose proof (R 34%nat ltac:(now left)) as X. pose proof (R 35%nat ltac:(right; now left)) as Y. pose proof (R 36%nat ltac:(right; right; now left)) as Z0.
  assert (S1 : 1 <= nth 34 h 0 + nth 35 h 0 + nth 36 h 0) by (destruct I as [<-|[<-|[<-|[]]]]; lia).
  assert (U : forall t, (t < 34)%nat -> nth t h 0 = nth t l 0) by (intros t Q; rewrite EH; apply app_nth1; lia).
  assert (P : plain_hand (l ++ [0; 0; 0])).
  { split; [rewrite app_length, Ll; reflexivity|]. split.
    - intros t Q. rewrite app_nth1, <- U by lia. now apply B.
    - intros t Q. rewrite app_nth2, Ll by lia. destruct (t - 34)%nat as [|[|[|[|]]]]; reflexivity. }
  assert (T' : total (l ++ [0; 0; 0]) = 14 - 3 * Z.of_nat m).
  { rewrite <- T. unfold total. rewrite fold_right_app. reflexivity. }
  destruct (marked_value l (nth 34 h 0) (nth 35 h 0) (nth 36 h 0) m Ll P T' X Y Z0 S1) as (n & s & V & W).
  rewrite <- EH in V. exists n, s. split; [exact V|]. intros N. destruct (W N) as [M K]. split; [exact M|].
  destruct K as [K|(d & D & K)].
  - left. rewrite (filter_ext_in _ (fun t => 2 <=? nth t l 0)); [exact K|]. intros t Q. apply in_seq in Q. rewrite U by lia. reflexivity.
  - right. assert (O : forall t, In t orphans -> (t < 34)%nat) by (intros t Q; cbn in Q; lia).
    exists d. split; [exact D|]. rewrite (U d (O d D)).
    rewrite (filter_ext_in _ (fun t => 1 <=? nth t l 0)); [exact K|]. intros t Q. rewrite U by (now apply O). reflexivity.
Qed.
Print Assumptions C65_hidden_partial.

(** 123m 456m 789m 111z 22z with and without the red marker of 5m *)
Definition red_win (marker : Z) : list Z :=
  repeat 1 9 ++ repeat 0 18 ++ [3; 2; 0; 0; 0; 0; 0; marker; 0; 0].
Theorem C65_refuted : exists h, length h = 37%nat /\ nth 4 h 0 = 1 /\ nth 34 h 0 = 1 /\
  exists n n' s s', shanten h = Some (n, s) /\ shanten (firstn 34 h ++ [0; 0; 0]) = Some (n', s') /\ n <> n' /\ n' = -1.
Proof.
  exists (red_win 1). split; [reflexivity|]. split; [reflexivity|]. split; [reflexivity|].
  assert (A : option_map fst (shanten (red_win 1)) <> Some (-1)) by (vm_compute; discriminate).
  assert (B : option_map fst (shanten (firstn 34 (red_win 1) ++ [0; 0; 0])) = Some (-1)) by (vm_compute; reflexivity).
  destruct (solve_ok (red_win 1) eq_refl) as (n & E & _).
  destruct (shanten (firstn 34 (red_win 1) ++ [0; 0; 0])) as [[n' s']|]; [|discriminate B].
  exists n, n', (set_best (sv_init (red_win 1)) n), s'. cbn [option_map fst] in B. injection B as ->.
  split; [exact E|]. split; [reflexivity|]. split; [|reflexivity]. intros ->. apply A. rewrite E. reflexivity.
Qed.
Print Assumptions C65_refuted.

Definition red_wait : list Z := [1; 1; 1; 1; 1; 1; 1; 1; 1] ++ [0; 0; 0; 0; 2] ++ repeat 0 13 ++ [2; 0; 0; 0; 0; 0; 0; 0; 1; 0].
Example C65_example : (14 - total (firstn 34 red_wait)) mod 3 = 1 /\ nth 13 red_wait 0 = 2 /\ option_map fst (shanten red_wait) = Some 0.
Proof. vm_compute. auto. Qed.

(** two called sets and 234m 55m 666m with the red 5m: a win, reported as distance 1 *)
Definition red_called : list Z := [0; 1; 1; 1; 2; 3; 0; 0; 0] ++ repeat 0 25 ++ [1; 0; 0].
Example C65_hidden_example : total (firstn 34 red_called) = 14 - 3 * 2 /\ nth 34 red_called 0 = 1 /\
  option_map fst (shanten red_called) = Some 1 /\ option_map fst (shanten (firstn 34 red_called ++ [0; 0; 0])) = Some (-1).
Proof. vm_compute. auto. Qed.
