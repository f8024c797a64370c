(** Properties C105, C106: hands that are one tile short of complete, and what a draw does to
    the shanten number.  [drawn], complete hands: SpecShanten.v. *)
From Coq Require Import ZArith List Bool Lia Arith.
From Verif Require Import Base Constants VecLemmas Shanten SpecShanten SpecDistance ShantenSearch ShantenLemmas ShantenWins ShantenDistance ShantenDistance2
  ShantenReady ShantenTenpai PropsDistance PropsShanten.
Import ListNotations.
Open Scope Z_scope.

(** Where the last tile of a complete hand goes *)
Lemma without h h' t n : plain_hand h -> (t < 34)%nat -> drawn h t h' -> standard_win h' n ->
  exists sets pairs q, Forall legal sets /\ Forall (fun p => (p < 34)%nat) pairs /\ NoDup pairs /\ piece_34 q /\ length pairs = pairs_for q /\
    forall k, (k < 34)%nat -> nth k h 0 = uses_all sets k + two pairs k + piece_uses q k.
Proof.
  intros P Ht (_ & D) (sets & p & Ln & F & Hp & E).
  assert (D' : forall k, (k < 34)%nat -> nth k h 0 = uses_all sets k + (if Nat.eqb k p then 2 else 0) - (if Nat.eqb k t then 1 else 0)).
  { intros k K. specialize (E k K). rewrite D in E. lia. }
  destruct (Nat.eq_dec t p) as [->|Np].
  { exists sets, [], (One p). split; [exact F|]. split; [constructor|]. split; [constructor|]. split; [exact Hp|]. split; [reflexivity|].
    intros k K. rewrite D' by exact K. cbn [two fold_right piece_uses]. unfold at_tile. destruct (Nat.eqb k p); lia. }
  assert (U : uses_all sets t <> 0).
  { pose proof (D' t Ht) as Q. rewrite Nat.eqb_refl, (proj2 (Nat.eqb_neq t p) Np) in Q. destruct P as (_ & B & _). specialize (B t Ht). lia. }
  destruct (exists_use sets t U) as (m & M & Um). destruct (in_split _ _ M) as (l1 & l2 & ->). clear M U.
  assert (Fm : legal m) by (apply (proj1 (Forall_forall _ _) F); apply in_elt).
  assert (Fr : Forall legal (l1 ++ l2)) by (apply Forall_app in F as [F1 F2]; apply Forall_app; split; [exact F1|now inversion F2]).
  assert (D2 : forall k, (k < 34)%nat -> nth k h 0 = uses_all (l1 ++ l2) k + uses m k + (if Nat.eqb k p then 2 else 0) - (if Nat.eqb k t then 1 else 0)).
  { intros k K. rewrite D' by exact K. rewrite !uses_app, uses_all_cons. lia. }
  destruct m as [i|i]; cbn [uses legal] in *.
  - destruct (Nat.eqb_spec t i) as [<-|]; [|lia]. exists (l1 ++ l2), [t; p], Nothing. split; [exact Fr|].
    split; [repeat (apply Forall_cons; [assumption|]); constructor|]. split; [constructor; [intros [Q|[]]; congruence|constructor; [intros []|constructor]]|]. split; [exact I|]. split; [reflexivity|].
    intros k K. rewrite D2 by exact K. rewrite !two_cons. cbn [two fold_right piece_uses]. destruct (Nat.eqb k t), (Nat.eqb k p); lia.
  - destruct Fm as [I1 I2]. pose proof (run_fits i I1 I2) as I3.
    assert (t = i \/ t = i + 1 \/ t = i + 2)%nat as [->|[->| ->]] by (destruct (Nat.leb_spec i t), (Nat.leb_spec t (i + 2)); cbn [andb] in Um; lia).
    + exists (l1 ++ l2), [p], (Side (i + 1)). split; [exact Fr|]. split; [repeat (apply Forall_cons; [assumption|]); constructor|]. split; [constructor; [intros []|constructor]|].
      split; [|split; [reflexivity|]].
      { clear - I1 I2. cbn [piece_34 piece_ok]. do 27 (destruct i as [|i]; [cbn in *; lia|]). lia. }
      intros k K. rewrite D2 by exact K. rewrite !two_cons. cbn [two fold_right piece_uses]. unfold at_tile. tiles; cbn [andb]; lia.
    + exists (l1 ++ l2), [p], (Gap i). split; [exact Fr|]. split; [repeat (apply Forall_cons; [assumption|]); constructor|]. split; [constructor; [intros []|constructor]|].
      split; [split; assumption|split; [reflexivity|]].
      intros k K. rewrite D2 by exact K. rewrite !two_cons. cbn [two fold_right piece_uses]. unfold at_tile. tiles; cbn [andb]; lia.
    + exists (l1 ++ l2), [p], (Side i). split; [exact Fr|]. split; [repeat (apply Forall_cons; [assumption|]); constructor|]. split; [constructor; [intros []|constructor]|].
      split; [split; [assumption|lia]|split; [reflexivity|]].
      intros k K. rewrite D2 by exact K. rewrite !two_cons. cbn [two fold_right piece_uses]. unfold at_tile. tiles; cbn [andb]; lia.
Qed.

Lemma total_34 h : plain_hand h -> total h = S34 (fun t => nth t h 0).
Proof. intros P. rewrite (total_split h P). unfold S34. change (seq 0 34) with (seq 0 27 ++ seq 27 7). rewrite map_app, vsum_app. reflexivity. Qed.

(** One draw away from a complete hand: the target is the hand and one tile. *)
Lemma near_drawn h w n : plain_hand h -> total h = 3 * Z.of_nat n + 1 -> standard_win w n ->
  1 <= missing h w /\ (missing h w <= 1 -> exists t h', (t < 34)%nat /\ drawn h t h' /\ standard_win h' n).
Proof.
  intros P T (sets & p & Ln & F & Hp & E). rewrite (total_34 h P) in T. rewrite missing_S34.
  assert (W : S34 (fun t => nth t w 0) = 3 * Z.of_nat n + 2) by (rewrite (S34_ext _ _ E), S34_add, S34_at, S34_uses_all, Ln by assumption; reflexivity).
  assert (G : S34 (fun t => nth t w 0 + - nth t h 0) = 1) by (rewrite S34_add, S34_opp; lia).
  split.
  - rewrite <- G. apply S34_le. intros t _. lia.
  - intros M.
    assert (Z : S34 (fun t => Z.max 0 (nth t w 0 - nth t h 0) + - (nth t w 0 + - nth t h 0)) <= 0) by (rewrite S34_add, S34_opp; lia).
    assert (Le : forall t, (t < 34)%nat -> nth t h 0 <= nth t w 0).
    { intros t I. destruct (Z.le_gt_cases (nth t h 0) (nth t w 0)) as [Q|Q]; [exact Q|exfalso].
      assert (K : S34 (fun k => if Nat.eqb k t then 1 else 0) <= S34 (fun t => Z.max 0 (nth t w 0 - nth t h 0) + - (nth t w 0 + - nth t h 0))).
      { apply S34_le. intros k _. destruct (Nat.eqb_spec k t) as [->|]; lia. }
      rewrite S34_at in K by exact I. lia. }
    destruct (S34_pos (fun t => nth t w 0 + - nth t h 0) ltac:(lia)) as (t & I & Q). cbv beta in Q.
    assert (Ex : forall k, (k < 34)%nat -> nth k w 0 = nth k h 0 + (if Nat.eqb k t then 1 else 0)).
    { intros k K. pose proof (Le k K) as Lk. destruct (Z.le_gt_cases (nth k w 0) (nth k h 0 + (if Nat.eqb k t then 1 else 0))) as [Q'|Q'].
      - destruct (Nat.eqb_spec k t) as [->|]; lia.
      - exfalso. assert (V : S34 (fun x => (if Nat.eqb x t then 1 else 0) + (if Nat.eqb x k then 1 else 0)) <= S34 (fun t => nth t w 0 + - nth t h 0)).
        { apply S34_le. intros x X. specialize (Le x X). destruct (Nat.eqb_spec x t) as [E1|E1], (Nat.eqb_spec x k) as [E2|E2]; subst; try rewrite Nat.eqb_refl in Q'; try rewrite (proj2 (Nat.eqb_neq _ _) E1) in Q'; try lia. }
        rewrite S34_add, !S34_at in V by assumption. lia. }
    exists t, (vadd h t 1). split; [exact I|]. destruct P as (L & _ & R).
    assert (Dr : drawn h t (vadd h t 1)).
    { split; [apply length_vadd|]. intros k. destruct (Nat.lt_ge_cases k 37) as [K|K].
      - fold (vget (vadd h t 1) k). rewrite vget_vadd by lia. rewrite (Nat.eqb_sym t k). reflexivity.
      - rewrite (nth_overflow (vadd h t 1)) by (rewrite length_vadd; lia). rewrite nth_overflow by lia. now rewrite (proj2 (Nat.eqb_neq k t)) by lia. }
    split; [exact Dr|]. exists sets, p. do 3 (split; [assumption|]). intros k K. rewrite <- E by exact K. rewrite Ex by exact K. apply Dr.
Qed.

Lemma ready_normal h m : plain_hand h -> (m <= 4)%nat -> total h = 13 - 3 * Z.of_nat m ->
  0 <= normal_value h /\ (normal_value h = 0 <-> exists t h', (t < 34)%nat /\ drawn h t h' /\ standard_win h' (4 - m)).
Proof.
  intros P M T. pose proof P as (L & _). destruct (normal_ok h L) as [En V].
  destruct (C81_reachable_partial h m P M (or_intror T)) as (s & w & E & W & Ms). 
  assert (Es : normal_value h = sv_best s) by (unfold normal_value; now rewrite E). rewrite <- Es in Ms. clear En E Es s.
  destruct (near_drawn h w (4 - m) P ltac:(lia) W) as [N1 N2]. split; [lia|]. split.
  - intros Q. apply N2. lia.
  - intros (t & h' & I & D & W'). destruct (without h h' t _ P I D W') as (sets & pairs & q & A1 & A2 & A3 & A4 & A5 & A6).
    destruct (ready_found h m sets pairs q P M T A1 A2 A3 A4 A5 A6) as (s' & R & Le).
    pose proof (proj2 (V 0) (or_intror (ex_intro _ s' (conj R Le)))) as Z. apply Z.le_antisymm; [exact Z|]. lia.
Qed.

(** ** C105: on 13 - 3m tiles without red markers the standard search reports 0 exactly when one
    more tile makes 4 - m sets and a pair.  (The tile may be a fifth copy.) *)
Theorem C105_exact : forall h m, plain_hand h -> (m <= 4)%nat -> total h = 13 - 3 * Z.of_nat m ->
  exists s, solve_normal 140 0 (sv_init h) = Some s /\ 0 <= sv_best s /\
    (sv_best s = 0 <-> exists t h', (t < 34)%nat /\ drawn h t h' /\ standard_win h' (4 - m)).
Proof.
  intros h m P M T. pose proof P as (L & _). destruct (normal_ok h L) as [E _]. exists (set_best (sv_init h) (normal_value h)). split; [exact E|]. now apply ready_normal.
Qed.
Print Assumptions C105_exact.

(** The whole solver reports 0 exactly for these hands, for six types held twice or more, and
    for hands whose orphan types and copies of one orphan add up to 14; it never reports -1. *)
Lemma doubles13 h m : plain_hand h -> total h = 13 - 3 * Z.of_nat m -> (doubles h <= 6)%nat.
Proof.
  intros P T. pose proof (sum_ge_doubles h P) as Dd. destruct P as (L & B & R). rewrite sum_ge_index, L, sum_b2z in Dd.
  assert (N : forall t, In t (seq 0 37) -> 0 <= vget h t).
  { intros t I. apply in_seq in I. unfold vget. destruct (Nat.lt_ge_cases t 34); [specialize (B t ltac:(lia)); lia|]. rewrite R; lia. }
  destruct (pairs_low (seq 0 37) (vget h) N) as [G1 _].
  assert (TS : vsum (map (vget h) (seq 0 37)) = total h) by (unfold total; change (fold_right Z.add 0 h) with (vsum h); rewrite (vsum_index h), L; reflexivity).
  lia.
Qed.
Lemma orphans13 h m : plain_hand h -> total h = 13 - 3 * Z.of_nat m ->
  0 <= 13 - sum_ge (yaochu_arr h) 1 - (py_max (yaochu_arr h) - 1) /\
  (13 - sum_ge (yaochu_arr h) 1 - (py_max (yaochu_arr h) - 1) = 0 <-> exists d, In d orphans /\ Z.of_nat (length (present h)) + nth d h 0 = 14).
Proof.
  intros P T. rewrite kokushi_types by exact P. destruct (kokushi_max h P) as [(d & D & E) G]. rewrite E in G |- *.
  assert (N : forall t, 0 <= (fun t => nth t h 0) t) by (intros t; apply plain_ge; exact P).
  assert (B : Z.of_nat (length (present h)) + nth d h 0 <= 14).
  { destruct (Z.le_gt_cases 1 (nth d h 0)) as [Q|Q].
    - pose proof (sum_types orphans (fun t => nth t h 0) d N Q D) as W. cbv beta in W. fold (present h) in W.
      pose proof (orphans_total h P). lia.
    - assert (length (present h) <= 13)%nat by (unfold present; transitivity (length orphans); [apply filter_length_le|cbn; lia]). lia. }
  split; [lia|]. split.
  - intros Q. exists d. split; [exact D|lia].
  - intros (d' & D' & Q). specialize (G d' D'). lia.
Qed.
Theorem C105_solver : forall h m, plain_hand h -> (m <= 4)%nat -> total h = 13 - 3 * Z.of_nat m ->
  exists n s, shanten h = Some (n, s) /\ 0 <= n /\
    (n = 0 <-> (exists t h', (t < 34)%nat /\ drawn h t h' /\ standard_win h' (4 - m)) \/ doubles h = 6%nat \/
       exists d, In d orphans /\ Z.of_nat (length (filter (fun t => 1 <=? nth t h 0) orphans)) + nth d h 0 = 14).
Proof.
  intros h m P M T. pose proof P as (L & _). destruct (solve_ok h L) as (b & E & V). exists b, (set_best (sv_init h) b). split; [exact E|].
  destruct (ready_normal h m P M T) as [A1 A2]. pose proof (sum_ge_doubles h P) as B0. pose proof (doubles13 h m P T) as B1. destruct (orphans13 h m P T) as [C1 C2]. fold (present h).
  set (x := 13 - sum_ge (yaochu_arr h) 1 - (py_max (yaochu_arr h) - 1)) in *. split; [lia|]. rewrite <- A2, <- C2. lia.
Qed.
Print Assumptions C105_solver.

(** 1112345678999m waits for every tile of its suit. *)
Definition gates : list Z := [3; 1; 1; 1; 1; 1; 1; 1; 3] ++ repeat 0 28.
Example C105_example : plain_hand gates /\ total gates = 13 - 3 * Z.of_nat 0 /\
  (exists t h', (t < 34)%nat /\ drawn gates t h' /\ standard_win h' 4) /\ option_map fst (shanten gates) = Some 0.
Proof.
  assert (P : plain_hand gates).
  { split; [reflexivity|]. split; intros t T.
    + do 34 (destruct t as [|t]; [cbn; lia|]). lia.
    + do 37 (destruct t as [|t]; [cbn; lia|]). destruct t; reflexivity. }
  split; [exact P|]. split; [reflexivity|]. split; [|vm_compute; reflexivity].
  destruct (C105_exact gates 0 P ltac:(lia) eq_refl) as (s & E & _ & H). apply H.
  assert (Q : option_map sv_best (solve_normal 140 0 (sv_init gates)) = Some 0) by (vm_compute; reflexivity). rewrite E in Q. now injection Q.
Qed.

(** ** C106: a draw never raises the number and lowers it by at most one. *)

(** Proved: a draw that makes a standard win lowers the number from exactly 0 to exactly -1.
    (What is missing: other draws; a draw can raise the number.  For the two special hands see
    [C106_special_partial].) *)
Theorem C106_win_partial : forall h m t h', plain_hand h -> plain_hand h' -> (m <= 4)%nat -> total h = 13 - 3 * Z.of_nat m ->
  (t < 34)%nat -> drawn h t h' -> standard_win h' (4 - m) ->
  exists s s', shanten h = Some (0, s) /\ shanten h' = Some (-1, s').
Proof.
  intros h m t h' P P' M T I D W. destruct (C105_solver h m P M T) as (n & s & E & _ & H).
  assert (n = 0) as -> by (apply H; left; exists t, h'; auto).
  assert (T' : total h' = 14 - 3 * Z.of_nat m).
  { rewrite (total_34 h P) in T. rewrite (total_34 h' P'). destruct D as [_ D]. rewrite (S34_ext _ (fun k => nth k h 0 + (if Nat.eqb k t then 1 else 0))) by (intros; apply D).
    rewrite S34_add, S34_at by exact I. lia. }
  destruct (C64_wins_found h' m P' M T' (or_introl W)) as (s' & E'). exists s, s'. auto.
Qed.
Print Assumptions C106_win_partial.

(** For the two special hands the claim holds: a draw never raises the number of seven pairs or
    of thirteen orphans and lowers it by at most one (for the orphans once an orphan is held). *)
Lemma drawn_lists : forall h h' t, drawn h t h' -> (t < length h)%nat -> exists l1 x l2, h = l1 ++ x :: l2 /\ h' = l1 ++ (x + 1) :: l2 /\ length l1 = t.
Proof.
  induction h as [|x h IH]; intros h' t [L D] T; [cbn in T; lia|]. destruct h' as [|y h']; [discriminate L|].
  pose proof (D 0%nat) as D0. cbn [nth] in D0. destruct t as [|t].
  - exists [], x, h. cbn [Nat.eqb] in D0. split; [reflexivity|]. split; [|reflexivity]. cbn [app]. rewrite D0. f_equal.
    apply (nth_ext _ _ 0 0); [cbn in L; lia|]. intros n _. specialize (D (S n)). cbn [nth Nat.eqb] in D. lia.
  - cbn [Nat.eqb] in D0. destruct (IH h' t) as (l1 & z & l2 & -> & -> & Hl); [|cbn in T; lia|].
    + split; [cbn in L; lia|]. intros k. exact (D (S k)).
    + exists (x :: l1), z, l2. cbn [app length]. split; [reflexivity|]. split; [f_equal; lia|lia].
Qed.
Lemma drawn_counts v v' t k : drawn v t v' -> (t < length v)%nat -> sum_ge v' k = sum_ge v k + (if nth t v 0 =? k - 1 then 1 else 0).
Proof.
  intros D T. destruct (drawn_lists _ _ _ D T) as (l1 & x & l2 & -> & -> & <-). rewrite app_nth2, Nat.sub_diag by lia. cbn [nth].
  unfold sum_ge. rewrite !map_app, !vsum_app. cbn [map vsum fold_right]. unfold b2z. destruct (Z.leb_spec k x), (Z.leb_spec k (x + 1)), (Z.eqb_spec x (k - 1)); lia.
Qed.
Lemma drawn_most v v' t : drawn v t v' -> (t < length v)%nat -> py_max v <= py_max v' <= py_max v + 1 /\ (nth t v 0 < py_max v -> py_max v' = py_max v).
Proof.
  intros D T. destruct (drawn_lists _ _ _ D T) as (l1 & x & l2 & -> & -> & <-). rewrite app_nth2, Nat.sub_diag by lia. cbn [nth].
  set (v := l1 ++ x :: l2). set (v' := l1 ++ (x + 1) :: l2). assert (N : v <> [] /\ v' <> []) by (unfold v, v'; split; destruct l1; discriminate). destruct N as [N N'].
  assert (A : forall y, In y v -> y = x \/ In y v') by (unfold v, v'; intros y; rewrite !in_app_iff; cbn [In]; intuition congruence).
  assert (A' : forall y, In y v' -> y = x + 1 \/ In y v) by (unfold v, v'; intros y; rewrite !in_app_iff; cbn [In]; intuition congruence).
  assert (B : x <= py_max v) by (apply py_max_ge; unfold v; apply in_elt). assert (B' : x + 1 <= py_max v') by (apply py_max_ge; unfold v'; apply in_elt).
  destruct (A _ (py_max_in v N)) as [E|E]; [|apply py_max_ge in E]; (destruct (A' _ (py_max_in v' N')) as [E'|E']; [|apply py_max_ge in E']); lia.
Qed.
Definition orphan (t : nat) : bool := existsb (Nat.eqb t) orphans.
Theorem C106_special_partial : forall h t h', plain_hand h -> plain_hand h' -> (t < 34)%nat -> drawn h t h' ->
  let pairs x := sv_best (solve_chitoitsu (sv_init x)) in let orphans' x := sv_best (solve_kokushi (sv_init x)) in
  pairs h - 1 <= pairs h' <= pairs h /\ orphans' h' <= orphans' h /\
  (orphan t = false -> orphans' h' = orphans' h) /\
  ((exists d, In d orphans /\ 1 <= nth d h 0) -> orphans' h - 1 <= orphans' h').
Proof.
  intros h t h' P P' T D pairs orphans'.
  assert (L : length h = 37%nat) by apply P. assert (L' : length h' = 37%nat) by apply P'.
  pose proof (drawn_counts h h' t 2 D ltac:(lia)) as Q.
  change (pairs h) with (Z.min 14 (6 - sum_ge h 2)). change (pairs h') with (Z.min 14 (6 - sum_ge h' 2)).
  assert (Nn : 0 <= sum_ge h 2) by (rewrite (sum_ge_doubles h P); lia).
  change (orphans' h) with (Z.min 14 (13 - sum_ge (yaochu_arr h) 1 - (py_max (yaochu_arr h) - 1))).
  change (orphans' h') with (Z.min 14 (13 - sum_ge (yaochu_arr h') 1 - (py_max (yaochu_arr h') - 1))).
  split; [destruct (nth t h 0 =? 2 - 1); lia|]. clear Q Nn.
  assert (Y : forall k, nth k (yaochu_arr h') 0 = nth k (yaochu_arr h) 0 + (if (Nat.eqb k t && orphan t)%bool then 1 else 0)).
  { intros k. pose proof (yaochu_plain h k P) as A. pose proof (yaochu_plain h' k P') as A'. unfold vget in A, A'. rewrite A, A'.
    destruct D as [_ D]. rewrite (D k). unfold orphan. destruct (Nat.eqb_spec k t) as [->|N]; cbn [andb]; destruct (existsb _ orphans); lia. }
  assert (Ly : length (yaochu_arr h) = 37%nat) by (apply yaochu_len; exact L). assert (Ly' : length (yaochu_arr h') = 37%nat) by (apply yaochu_len; exact L').
  destruct (orphan t) eqn:O.
  - assert (Dy : drawn (yaochu_arr h) t (yaochu_arr h')) by (split; [lia|]; intros k; rewrite (Y k), andb_true_r; reflexivity).
    pose proof (drawn_counts _ _ t 1 Dy ltac:(lia)) as C. destruct (drawn_most _ _ t Dy ltac:(lia)) as [M M']. change (1 - 1) with 0 in C.
    split; [destruct (nth t (yaochu_arr h) 0 =? 0); lia|]. split; [discriminate|]. intros (d & Id & Hd).
    assert (G : 1 <= py_max (yaochu_arr h)).
    { pose proof (yaochu_plain h d P) as A. unfold vget in A. assert (E : existsb (Nat.eqb d) orphans = true) by (apply existsb_exists; exists d; split; [exact Id|apply Nat.eqb_refl]).
      rewrite E in A. rewrite <- A in Hd. eapply Z.le_trans; [exact Hd|]. apply py_max_ge, nth_In. rewrite Ly. pose proof (orphans_lt d Id). lia. }
    destruct (Z.eqb_spec (nth t (yaochu_arr h) 0) 0) as [E|E]; [rewrite M' by lia; lia|lia].
  - assert (E : yaochu_arr h' = yaochu_arr h) by (apply (nth_ext _ _ 0 0); [lia|]; intros k _; rewrite (Y k), andb_false_r; lia). rewrite E. lia.
Qed.
Print Assumptions C106_special_partial.

(** 24m 778899m EE with one meld called is one tile short of complete; after drawing a third 7m the solver
    reports that two are missing. *)
Definition before : list Z := [0; 1; 0; 1; 0; 0; 2; 2; 2] ++ repeat 0 18 ++ [2] ++ repeat 0 9.
Definition after : list Z := [0; 1; 0; 1; 0; 0; 3; 2; 2] ++ repeat 0 18 ++ [2] ++ repeat 0 9.
Theorem C106_refuted : plain_hand before /\ plain_hand after /\ total before = 13 - 3 * 1 /\ drawn before 6 after /\
  option_map fst (shanten before) = Some 0 /\ option_map fst (shanten after) = Some 1.
Proof.
  assert (Q : forall h, h = before \/ h = after -> plain_hand h).
  { intros h [-> | ->]; (split; [reflexivity|]; split; intros t T; [do 34 (destruct t as [|t]; [cbn; lia|]); lia|do 37 (destruct t as [|t]; [cbn; lia|]); destruct t; reflexivity]). }
  split; [apply Q; auto|]. split; [apply Q; auto|]. split; [reflexivity|]. split; [|split; vm_compute; reflexivity].
  split; [reflexivity|]. intros k. do 37 (destruct k as [|k]; [reflexivity|]). destruct k; reflexivity.
Qed.
Print Assumptions C106_refuted.
