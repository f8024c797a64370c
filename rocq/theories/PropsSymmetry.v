(** Properties C103, C104: symmetries of ShantenSolver. *)
From Coq Require Import ZArith List Bool Lia Arith Permutation.
From Verif Require Import Base Constants VecLemmas Shanten SpecShanten ShantenSearch ShantenWins ShantenRename PropsShanten.
Import ListNotations.
Open Scope Z_scope.

(** ** C103: the number does not depend on which suit is which and which honour is which,
    for every vector of counts, legal or not, with or without red markers. *)
Theorem C103_renaming : forall h h', renamed h h' -> exists n s s', shanten h = Some (n, s) /\ shanten h' = Some (n, s').
Proof.
  intros h h' R. destruct (renamed_shanten _ _ R) as (n & E & E'). destruct (shanten h) as [[x s]|]; [|discriminate E]. destruct (shanten h') as [[y s']|]; [|discriminate E'].
  cbn in E, E'. injection E as ->. injection E' as ->. eauto.
Qed.
Print Assumptions C103_renaming.
(** 1123m 456p 789s EEWN, and the same with manzu and souzu exchanged and the honours in
    the opposite order *)
Example C103_example : let a := [2; 1; 1; 0; 0; 0; 0; 0; 0] in let b := [0; 0; 0; 1; 1; 1; 0; 0; 0] in let c := [0; 0; 0; 0; 0; 0; 1; 1; 1] in
  renamed (a ++ b ++ c ++ [2; 0; 1; 1; 0; 0; 0] ++ [0; 0; 0]) (c ++ b ++ a ++ [0; 0; 0; 1; 1; 0; 2] ++ [0; 0; 0]) /\
  option_map fst (shanten (a ++ b ++ c ++ [2; 0; 1; 1; 0; 0; 0] ++ [0; 0; 0])) = Some 1.
Proof.
  cbn zeta. split; [|vm_compute; reflexivity].
  exists [[2; 1; 1; 0; 0; 0; 0; 0; 0]; [0; 0; 0; 1; 1; 1; 0; 0; 0]; [0; 0; 0; 0; 0; 0; 1; 1; 1]], [[0; 0; 0; 0; 0; 0; 1; 1; 1]; [0; 0; 0; 1; 1; 1; 0; 0; 0]; [2; 1; 1; 0; 0; 0; 0; 0; 0]],
    [2; 0; 1; 1; 0; 0; 0], [0; 0; 0; 1; 1; 0; 2], [0; 0; 0].
  repeat (split; [reflexivity|]). split; [repeat constructor|]. split; [reflexivity|]. split; [reflexivity|]. split.
  - exact (Permutation_rev [[2; 1; 1; 0; 0; 0; 0; 0; 0]; [0; 0; 0; 1; 1; 1; 0; 0; 0]; [0; 0; 0; 0; 0; 0; 1; 1; 1]]).
  - exact (Permutation_rev [2; 0; 1; 1; 0; 0; 0]).
Qed.

(** ** C104: mirroring the suits *)
Definition mir (t : nat) : nat := if Nat.ltb t 27 then (9 * (t / 9) + (8 - t mod 9))%nat else t.
Lemma mir_lt t : (t < 34)%nat -> (mir t < 34)%nat.
Proof. intros H. do 34 (destruct t as [|t]; [cbn; lia|]). lia. Qed.
Lemma mir_mir t : (t < 34)%nat -> mir (mir t) = t.
Proof. intros H. do 34 (destruct t as [|t]; [reflexivity|]). lia. Qed.

Lemma mirrored_nth h h' : mirrored h h' -> length h = 37%nat /\ length h' = 37%nat /\ (forall t, (t < 34)%nat -> nth t h' 0 = nth (mir t) h 0) /\ (forall t, (34 <= t)%nat -> nth t h' 0 = nth t h 0).
Proof.
  intros (s0 & s1 & s2 & r & -> & -> & L0 & L1 & L2 & Lr).
  do 9 (destruct s0 as [|? s0]; [discriminate L0|]). destruct s0; [|discriminate L0]. do 9 (destruct s1 as [|? s1]; [discriminate L1|]). destruct s1; [|discriminate L1].
  do 9 (destruct s2 as [|? s2]; [discriminate L2|]). destruct s2; [|discriminate L2]. do 10 (destruct r as [|? r]; [discriminate Lr|]). destruct r; [|discriminate Lr].
  cbn [rev app]. split; [reflexivity|]. split; [reflexivity|]. split; intros t T.
  - do 34 (destruct t as [|t]; [reflexivity|]). lia.
  - do 34 (destruct t as [|t]; [lia|]). do 4 (destruct t as [|t]; [reflexivity|]). reflexivity.
Qed.
Lemma mirrored_sym h h' : mirrored h h' -> mirrored h' h.
Proof.
  intros (s0 & s1 & s2 & r & -> & -> & L0 & L1 & L2 & Lr). exists (rev s0), (rev s1), (rev s2), r. rewrite !rev_involutive, !rev_length. auto 10.
Qed.
Lemma mirrored_plain h h' : mirrored h h' -> plain_hand h -> plain_hand h' /\ total h' = total h.
Proof.
  intros M (L & A & B). destruct (mirrored_nth _ _ M) as (_ & L' & N & O). split.
  - split; [exact L'|]. split; intros t T; [rewrite N by exact T; apply A, mir_lt, T|rewrite O by exact T; now apply B].
  - destruct M as (s0 & s1 & s2 & r & -> & -> & _). change total with vsum. rewrite !vsum_app. assert (R : forall l, vsum (rev l) = vsum l) by (intros l; apply vsum_perm, Permutation_sym, Permutation_rev). now rewrite !R.
Qed.

Definition mset_mir (m : mset) : mset := match m with Triplet i => Triplet (mir i) | Run i => Run (mir (i + 2)) end.
Lemma mir_legal m : legal m -> legal (mset_mir m).
Proof.
  destruct m as [i|i]; cbn [mset_mir legal].
  - apply mir_lt.
  - intros [H M]. do 27 (destruct i as [|i]; [cbn in *; lia|]). lia.
Qed.
Lemma mir_uses m t : legal m -> (t < 34)%nat -> uses (mset_mir m) t = uses m (mir t).
Proof.
  intros L T. destruct m as [i|i]; cbn [mset_mir legal uses] in *.
  - destruct (Nat.eqb_spec t (mir i)) as [->|N]; [rewrite mir_mir, Nat.eqb_refl by exact L; reflexivity|]. destruct (Nat.eqb_spec (mir t) i) as [<-|N']; [rewrite mir_mir in N by exact T; contradiction|reflexivity].
  - assert (C : forallb (fun i => forallb (fun t => negb (Nat.leb (Nat.modulo i 9) 6) ||
        Bool.eqb (Nat.leb (mir (i + 2)) t && Nat.leb t (mir (i + 2) + 2)) (Nat.leb i (mir t) && Nat.leb (mir t) (i + 2))) (seq 0 34)) (seq 0 27) = true) by (vm_compute; reflexivity).
    rewrite forallb_forall in C. assert (I : In i (seq 0 27)) by (apply in_seq; lia). specialize (C i I). rewrite forallb_forall in C. assert (It : In t (seq 0 34)) by (apply in_seq; lia). specialize (C t It).
    destruct L as [_ L]. apply Nat.leb_le in L. rewrite L in C. cbn [negb orb] in C. apply Bool.eqb_prop in C. now rewrite C.
Qed.
Lemma mirrored_win h h' n : mirrored h h' -> standard_win h n -> standard_win h' n.
Proof.
  intros M (sets & p & Ln & F & P & E). destruct (mirrored_nth _ _ M) as (_ & _ & N & _). exists (map mset_mir sets), (mir p). split; [now rewrite map_length|].
  split; [apply Forall_map; eapply Forall_impl; [|exact F]; apply mir_legal|]. split; [now apply mir_lt|]. intros t T. rewrite N, E by (try apply mir_lt; exact T). f_equal.
  - clear - F T. unfold uses_all. induction F as [|m l Lm _ IH]; [reflexivity|]. cbn [map fold_right]. rewrite mir_uses by assumption. now rewrite IH.
  - destruct (Nat.eqb_spec (mir t) p) as [<-|Q]; [now rewrite mir_mir, Nat.eqb_refl by exact T|]. destruct (Nat.eqb_spec t (mir p)) as [->|Q']; [rewrite mir_mir in Q by exact P; contradiction|reflexivity].
Qed.
Lemma mirrored_pairs h h' : mirrored h h' -> seven_pairs h -> seven_pairs h'.
Proof.
  intros M (A & l & ND & Ll & B). destruct (mirrored_nth _ _ M) as (_ & _ & N & _). split; [intros t T; rewrite N by exact T; apply A, mir_lt, T|].
  exists (map mir l). split; [|split; [now rewrite map_length|]].
  - clear - ND B. induction ND as [|x l Hx _ IH]; cbn [map]; constructor.
    + intros I. apply in_map_iff in I as (y & E & I). apply Hx. replace x with y; [exact I|]. rewrite <- (mir_mir x), <- (mir_mir y) by (apply B; cbn; tauto). now rewrite E.
    + apply IH. intros t T. apply B. now right.
  - intros t I. apply in_map_iff in I as (y & <- & I). destruct (B y I) as [Y V]. split; [now apply mir_lt|]. rewrite N, mir_mir by (try apply mir_lt; exact Y). exact V.
Qed.
Lemma mirrored_orphans h h' : mirrored h h' ->
  (exists d, In d orphans /\ Z.of_nat (length (filter (fun t => 1 <=? nth t h 0) orphans)) + nth d h 0 = 15) ->
  exists d, In d orphans /\ Z.of_nat (length (filter (fun t => 1 <=? nth t h' 0) orphans)) + nth d h' 0 = 15.
Proof.
  intros M (d & I & E). destruct (mirrored_nth _ _ M) as (_ & _ & N & _).
  assert (O : forall t, In t orphans -> (t < 34)%nat /\ In (mir t) orphans) by (intros t T; cbn in T; repeat (destruct T as [<-|T]; [cbn; split; [lia|tauto]|]); destruct T).
  exists (mir d). split; [now apply O|]. rewrite N, mir_mir by (try apply mir_lt; now apply O). rewrite <- E. f_equal. f_equal.
  assert (F : forall l, (forall t, In t l -> (t < 34)%nat) -> length (filter (fun t => 1 <=? nth t h' 0) l) = length (filter (fun t => 1 <=? nth t h 0) (map mir l))).
  { clear - N. induction l as [|x l IH]; intros H; [reflexivity|]. cbn [map filter]. rewrite <- N by (apply H; now left). specialize (IH (fun t T => H t (or_intror T))). destruct (1 <=? nth x h' 0); cbn [length]; lia. }
  rewrite F by (intros t T; now apply O). apply Permutation_length.
  assert (FP : forall (f : nat -> bool) l l', Permutation l l' -> Permutation (filter f l) (filter f l')).
  { clear. intros f l l' P. induction P as [|x l l' _ IH|x y l|l l' l'' _ IH1 _ IH2]; cbn [filter]; [constructor| | |now transitivity (filter f l')].
    - destruct (f x); [now constructor|exact IH].
    - destruct (f x), (f y); try reflexivity. apply perm_swap. }
  apply FP. change (map mir orphans) with ([8; 0; 17; 9; 26; 18] ++ [27; 28; 29; 30; 31; 32; 33])%nat. change orphans with ([0; 8; 9; 17; 18; 26] ++ [27; 28; 29; 30; 31; 32; 33])%nat. apply Permutation_app_tail.
  etransitivity; [apply perm_swap|]. do 2 apply perm_skip. etransitivity; [apply perm_swap|]. do 2 apply perm_skip. apply perm_swap.
Qed.

(** Complete hands are recognised in the mirror. *)
Theorem C104_wins_partial : forall h h' m, mirrored h h' -> plain_hand h -> (m <= 4)%nat -> SpecShanten.total h = 14 - 3 * Z.of_nat m ->
  exists n s n' s', shanten h = Some (n, s) /\ shanten h' = Some (n', s') /\ (n = -1 <-> n' = -1).
Proof.
  intros h h' m M P Hm T. destruct (mirrored_plain _ _ M P) as [P' T']. rewrite <- T' in T. pose proof (mirrored_sym _ _ M) as M'.
  destruct (C64_exact h' m P' Hm T) as (n' & s' & E' & _ & V'). rewrite T' in T. destruct (C64_exact h m P Hm T) as (n & s & E & _ & V).
  exists n, s, n', s'. split; [exact E|]. split; [exact E'|]. rewrite V, V'. split; (intros [H|[H|H]]; [left; eapply mirrored_win; eauto|right; left; eapply mirrored_pairs; eauto|right; right; eapply mirrored_orphans; eauto]).
Qed.
Print Assumptions C104_wins_partial.

(** 11 34 777 88 99m with one meld called is reported one tile further from ready than its
    mirror image 99 76 333 22 11m. *)
Definition far_hand : list Z := [2; 0; 1; 1; 0; 0; 3; 2; 2] ++ repeat 0 28.
Definition near_hand : list Z := [2; 2; 3; 0; 0; 1; 1; 0; 2] ++ repeat 0 28.
Theorem C104_refuted : mirrored far_hand near_hand /\ plain_hand far_hand /\ SpecShanten.total far_hand = 14 - 3 * 1 /\
  option_map fst (shanten far_hand) = Some 1 /\ option_map fst (shanten near_hand) = Some 0.
Proof.
  split; [|split; [|split; [reflexivity|split; vm_compute; reflexivity]]].
  - exists [2; 0; 1; 1; 0; 0; 3; 2; 2], (repeat 0 9), (repeat 0 9), (repeat 0 10). repeat split.
  - split; [reflexivity|]. split; intros t T.
    + do 34 (destruct t as [|t]; [cbn; lia|]). lia.
    + do 37 (destruct t as [|t]; [cbn; lia|]). destruct t; reflexivity.
Qed.
Print Assumptions C104_refuted.
