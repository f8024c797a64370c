(** The values of the standard search as distances: every leaf of the search gives a
    complete hand that is at most its value plus one tiles away. *)
From Coq Require Import ZArith List Bool Lia Arith Permutation.
From Verif Require Import Base Constants VecLemmas Shanten SpecShanten SpecDistance ShantenSearch ShantenLemmas ShantenWins.
Import ListNotations.
Open Scope Z_scope.

(** Sum over all types *)
Definition S34 (f : nat -> Z) : Z := vsum (map f (seq 0 34)).

Lemma S34_add f g : S34 (fun t => f t + g t) = S34 f + S34 g.
Proof. unfold S34. apply vsum_map_add. Qed.
Lemma S34_ext f g : (forall t, (t < 34)%nat -> f t = g t) -> S34 f = S34 g.
Proof. intros H. apply vsum_ext. intros t T. apply in_seq in T. apply H. lia. Qed.
Lemma S34_nonneg f : (forall t, (t < 34)%nat -> 0 <= f t) -> 0 <= S34 f.
Proof.
  intros H. unfold S34. apply vsum_nonneg. apply Forall_forall. intros x X. apply in_map_iff in X.
  destruct X as (t & <- & T). apply in_seq in T. apply H. lia.
Qed.
Lemma S34_opp f : S34 (fun t => - f t) = - S34 f.
Proof. assert (E : S34 (fun t => f t + - f t) = S34 (fun _ => 0)) by (apply S34_ext; intros; lia). rewrite S34_add in E. change (S34 (fun _ => 0)) with 0 in E. lia. Qed.
Lemma S34_le f g : (forall t, (t < 34)%nat -> f t <= g t) -> S34 f <= S34 g.
Proof.
  intros H. assert (Q : 0 <= S34 (fun t => g t + - f t)) by (apply S34_nonneg; intros t T; specialize (H t T); lia).
  rewrite S34_add, S34_opp in Q. lia.
Qed.
Lemma S34_at i c : (i < 34)%nat -> S34 (fun t => if Nat.eqb t i then c else 0) = c.
Proof. intros H. unfold S34. do 34 (destruct i as [|i]; [cbn; lia|]). lia. Qed.

Lemma S34_uses m : legal m -> S34 (uses m) = 3.
Proof.
  destruct m as [i|i]; cbn [legal uses].
  - intros I. rewrite (S34_ext _ (fun t => if Nat.eqb t i then 3 else 0)) by reflexivity. now apply S34_at.
  - intros [I M]. pose proof (run_fits i I M) as F.
    rewrite (S34_ext _ (fun t => ((if Nat.eqb t i then 1 else 0) + (if Nat.eqb t (i + 1) then 1 else 0)) + (if Nat.eqb t (i + 2) then 1 else 0))).
    + rewrite !S34_add, !S34_at by lia. lia.
    + intros t T. cbn [uses]. destruct (Nat.leb_spec i t), (Nat.leb_spec t (i + 2)), (Nat.eqb_spec t i), (Nat.eqb_spec t (i + 1)), (Nat.eqb_spec t (i + 2)); cbn; lia.
Qed.
Lemma S34_uses_all l : Forall legal l -> S34 (uses_all l) = 3 * Z.of_nat (length l).
Proof.
  induction 1 as [|m l M _ IH]; [reflexivity|].
  rewrite (S34_ext _ (fun t => uses m t + uses_all l t)) by reflexivity.
  rewrite S34_add, S34_uses, IH by exact M. cbn [length]. lia.
Qed.

(** A set of which two tiles are there: the target set and the tiles that are there *)
Notation part := (mset * (nat -> Z))%type.
Definition part_ok (p : part) : Prop :=
  legal (fst p) /\ (forall t, 0 <= snd p t <= uses (fst p) t) /\ S34 (snd p) = 2.
Definition have (l : list part) (t : nat) : Z := fold_right (fun p a => snd p t + a) 0 l.

Lemma have_cons p l t : have (p :: l) t = snd p t + have l t. Proof. reflexivity. Qed.
Lemma have_app a b t : have (a ++ b) t = have a t + have b t.
Proof. induction a as [|x a IH]; [reflexivity|]. cbn [app]. rewrite !have_cons, IH. lia. Qed.
Lemma have_nonneg l t : Forall part_ok l -> 0 <= have l t.
Proof. induction 1 as [|p l (_ & P & _) _ IH]; [cbn; lia|]. rewrite have_cons. specialize (P t). lia. Qed.
Lemma have_le l t : Forall part_ok l -> have l t <= uses_all (map fst l) t.
Proof.
  induction 1 as [|p l (_ & P & _) _ IH]; [cbn; lia|].
  rewrite have_cons. cbn [map]. rewrite uses_all_cons. specialize (P t). lia.
Qed.
Lemma S34_have l : Forall part_ok l -> S34 (have l) = 2 * Z.of_nat (length l).
Proof.
  induction 1 as [|p l (_ & _ & P) _ IH]; [reflexivity|].
  rewrite (S34_ext _ (fun t => snd p t + have l t)) by reflexivity.
  rewrite S34_add, P, IH. cbn [length]. lia.
Qed.
Lemma have_firstn k l t : Forall part_ok l -> have (firstn k l) t <= have l t.
Proof.
  intros F. rewrite <- (firstn_skipn k l) at 2. rewrite have_app.
  assert (0 <= have (skipn k l) t); [|lia]. apply have_nonneg.
  rewrite <- (firstn_skipn k l) in F. now apply Forall_app in F.
Qed.

(** The partial sets of the search *)
Definition kanchan (i : nat) : part :=
  (Run i, fun t => (if Nat.eqb t i then 1 else 0) + (if Nat.eqb t (i + 2) then 1 else 0)).
Definition ryanmen (i : nat) : part :=
  (Run (if Nat.leb (Nat.modulo i 9) 6 then i else i - 1),
   fun t => (if Nat.eqb t i then 1 else 0) + (if Nat.eqb t (i + 1) then 1 else 0)).
Definition tuple (i : nat) : part := (Triplet i, fun t => if Nat.eqb t i then 2 else 0).

Lemma kanchan_ok i : (i < 27)%nat -> (Nat.modulo i 9 <= 6)%nat -> part_ok (kanchan i).
Proof.
  intros I M. pose proof (run_fits i I M). split; [split; assumption|]. split; cbn [fst snd kanchan].
  - intros t. cbn [uses]. destruct (Nat.leb_spec i t), (Nat.leb_spec t (i + 2)), (Nat.eqb_spec t i), (Nat.eqb_spec t (i + 2)); cbn; lia.
  - rewrite S34_add, !S34_at by lia. lia.
Qed.
Lemma shift_mod i : (i < 27)%nat -> (6 < Nat.modulo i 9)%nat -> (Nat.modulo i 9 < 8)%nat -> (1 <= i)%nat /\ (Nat.modulo (i - 1) 9 <= 6)%nat.
Proof. intros I M M'. do 27 (destruct i as [|i]; [cbn in *; lia|]). lia. Qed.
Lemma ryanmen_ok i : (i < 27)%nat -> (Nat.modulo i 9 < 8)%nat -> part_ok (ryanmen i).
Proof.
  intros I M. pose proof (run_fits1 i I M). split; [|split]; cbn [fst snd ryanmen].
  - destruct (Nat.leb_spec (Nat.modulo i 9) 6) as [Q|Q]; cbn [legal]; [auto|].
    destruct (shift_mod i I Q M). split; [lia|assumption].
  - intros t. destruct (Nat.leb_spec (Nat.modulo i 9) 6) as [Q|Q]; cbn [uses].
    + destruct (Nat.leb_spec i t), (Nat.leb_spec t (i + 2)), (Nat.eqb_spec t i), (Nat.eqb_spec t (i + 1)); cbn; lia.
    + destruct (shift_mod i I Q M).
      destruct (Nat.leb_spec (i - 1) t), (Nat.leb_spec t (i - 1 + 2)), (Nat.eqb_spec t i), (Nat.eqb_spec t (i + 1)); cbn; lia.
  - rewrite S34_add, !S34_at by lia. lia.
Qed.
Lemma tuple_ok i : (i < 34)%nat -> part_ok (tuple i).
Proof.
  intros I. split; [exact I|]. split; cbn [fst snd tuple].
  - intros t. cbn [uses]. destruct (Nat.eqb t i); lia.
  - now apply S34_at.
Qed.
Lemma have_tuples l t : have (map tuple l) t = two l t.
Proof. induction l as [|x l IH]; [reflexivity|]. cbn [map]. rewrite have_cons, IH. reflexivity. Qed.

(** ** What a path of the search cut out of the hand *)
Definition DecP (s s' : sv) : Prop :=
  exists sets pairs parts, Forall legal27 sets /\ Forall (fun p => (p < 27)%nat) pairs /\ Forall part_ok parts /\
    (forall t, (27 <= t)%nat -> have parts t = 0) /\
    (forall t, (t < 27)%nat -> uses_all sets t + two pairs t + have parts t <= vget (sv_hand s) t) /\
    sv_mentsu s' = sv_mentsu s + Z.of_nat (length sets) /\
    sv_toitsu s' = sv_toitsu s + Z.of_nat (length pairs) /\
    sv_taatsu s' = sv_taatsu s + Z.of_nat (length parts).

Lemma decP_koutsu i s s' : length (sv_hand s) = 37%nat -> (i < 27)%nat -> DecP (add_koutsu i s) s' -> DecP s s'.
Proof.
  intros L I (sets & pairs & parts & A & B & C & C' & D & M & P & T).
  exists (Triplet i :: sets), pairs, parts. fields. cbn [length].
  repeat split; auto; try lia.
  intros t H. specialize (D t H). pose proof (hand_koutsu i s t L H) as E. fields. rewrite E in D.
  rewrite uses_all_cons. cbn [uses]. lia.
Qed.
Lemma decP_toitsu i s s' : length (sv_hand s) = 37%nat -> (i < 27)%nat -> DecP (add_toitsu i s) s' -> DecP s s'.
Proof.
  intros L I (sets & pairs & parts & A & B & C & C' & D & M & P & T).
  exists sets, (i :: pairs), parts. fields. cbn [length].
  repeat split; auto; try lia.
  intros t H. specialize (D t H). pose proof (hand_toitsu i s t L H) as E. fields. rewrite E in D.
  unfold two; cbn [fold_right]. fold (two pairs t). lia.
Qed.
Lemma decP_shuntsu i s s' : length (sv_hand s) = 37%nat -> (i < 27)%nat -> (Nat.modulo i 9 <= 6)%nat ->
  DecP (add_shuntsu i s) s' -> DecP s s'.
Proof.
  intros L I I6 (sets & pairs & parts & A & B & C & C' & D & M & P & T).
  exists (Run i :: sets), pairs, parts. fields. cbn [length].
  repeat split; auto; try lia.
  - constructor; [split; assumption|exact A].
  - intros t H. specialize (D t H). pose proof (hand_run i s t L H) as E. fields. rewrite E in D.
    rewrite uses_all_cons. lia.
Qed.
Lemma decP_part p s c s' : part_ok p -> (forall t, (27 <= t)%nat -> snd p t = 0) ->
  (forall t, (t < 27)%nat -> vget (sv_hand c) t = vget (sv_hand s) t - snd p t) ->
  sv_mentsu c = sv_mentsu s -> sv_toitsu c = sv_toitsu s -> sv_taatsu c = sv_taatsu s + 1 ->
  DecP c s' -> DecP s s'.
Proof.
  intros O O7 H Em Et Ea (sets & pairs & parts & A & B & C & C' & D & M & P & T).
  exists sets, pairs, (p :: parts). cbn [length]. repeat split; auto; try lia.
  - intros t Q. rewrite have_cons, C', O7 by exact Q. reflexivity.
  - intros t Q. specialize (D t Q). rewrite H in D by exact Q. rewrite have_cons. lia.
Qed.
Lemma decP_kuttsuki i b s s' : length (sv_hand s) = 37%nat -> (i < 27)%nat -> DecP (add_kuttsuki i b s) s' -> DecP s s'.
Proof.
  intros L I (sets & pairs & parts & A & B & C & C' & D & M & P & T).
  exists sets, pairs, parts. fields. repeat split; auto; try lia.
  intros t H. specialize (D t H). pose proof (hand_kuttsuki i b s t L H) as E. fields. rewrite E in D.
  destruct (Nat.eqb t i); lia.
Qed.

Lemma decP_ps i tune s c : length (sv_hand s) = 37%nat -> (i < 27)%nat -> In c (ps_branches i tune s) ->
  forall s', DecP c s' -> DecP s s'.
Proof.
  intros L I H. unfold ps_branches in H. apply in_app_or in H. destruct H as [H|H].
  { destruct (Nat.ltb (Nat.modulo i 9) 7 && truthy (vget (sv_hand s) (i + 2))) eqn:E; [|destruct H].
    apply andb_prop in E. destruct E as [E7 _]. apply Nat.ltb_lt in E7.
    pose proof (run_fits i I ltac:(lia)) as F.
    apply in_app_or in H. destruct H as [H|[<-|[]]]; intros s'.
    - destruct (truthy (vget (sv_hand s) (i + 1))); [|destruct H]. destruct H as [<-|[]].
      apply decP_shuntsu; try assumption. lia.
    - apply (decP_part (kanchan i)); try reflexivity.
      + apply kanchan_ok; [exact I|lia].
      + intros t T. cbn [snd kanchan]. rewrite !(proj2 (Nat.eqb_neq t _)) by lia. reflexivity.
      + intros t T. now apply hand_taatsu1. }
  apply in_app_or in H. destruct H as [H|[<-|[]]]; intros s'.
  { destruct (Nat.ltb (Nat.modulo i 9) 8 && truthy (vget (sv_hand s) (i + 1))) eqn:E; [|destruct H].
    destruct H as [<-|[]]. apply andb_prop in E. destruct E as [E7 _]. apply Nat.ltb_lt in E7.
    pose proof (run_fits1 i I E7) as F.
    apply (decP_part (ryanmen i)); try reflexivity.
    + now apply ryanmen_ok.
    + intros t T. cbn [snd ryanmen]. rewrite !(proj2 (Nat.eqb_neq t _)) by lia. reflexivity.
    + intros t T. now apply hand_taatsu2. }
  now apply decP_kuttsuki.
Qed.

Lemma decP_branch i s j c : length (sv_hand s) = 37%nat -> (i < 27)%nat -> In (j, c) (branches i s) ->
  forall s', DecP c s' -> DecP s s'.
Proof.
  intros L I H s' DD. unfold branches in H.
  assert (Q : forall t x, In (j, c) (map (pair i) (ps_branches i t x)) -> In c (ps_branches i t x)).
  { intros t x K. apply in_map_iff in K. destruct K as (y & E & K). injection E as <- <-. auto. }
  destruct (koutsu_hand i s L I) as [LK _]. destruct (toitsu_hand i s L I) as [LT _].
  destruct (vget (sv_hand s) i =? 4).
  { apply in_app_or in H. destruct H as [H|[H|H]].
    - apply Q in H. apply (decP_koutsu i); auto. eapply decP_ps; eauto.
    - injection H as <- <-. now apply (decP_koutsu i).
    - apply Q in H. apply (decP_toitsu i); auto. eapply decP_ps; eauto. }
  destruct (vget (sv_hand s) i =? 3).
  { destruct H as [H|[H|[]]]; injection H as <- <-; [now apply (decP_koutsu i)|now apply (decP_toitsu i)]. }
  destruct (vget (sv_hand s) i =? 2).
  { destruct H as [H|H]; [injection H as <- <-; now apply (decP_toitsu i)|]. apply Q in H. eapply decP_ps; eauto. }
  destruct (vget (sv_hand s) i =? 1); [|destruct H]. apply Q in H. eapply decP_ps; eauto.
Qed.

Lemma reach_decP idx s s' : Reach idx s s' -> length (sv_hand s) = 37%nat -> nonneg s -> DecP s s'.
Proof.
  induction 1 as [idx s I Z0|idx i s j c s' I Z0 NZ B R IH]; intros L N.
  - exists [], [], []. cbn [length]. repeat split; auto; lia.
  - destruct (dec_branch i s j c L N ltac:(lia) B) as [A _]. apply (decP_branch i s j c L ltac:(lia) B). apply IH; [|exact A].
    apply (branch_smaller i s j c L ltac:(lia) B).
Qed.

(** ** Completing a decomposition *)
Definition cnt (l : list nat) (t : nat) : Z := fold_right (fun p a => (if Nat.eqb t p then 1 else 0) + a) 0 l.
Lemma cnt_cons x l t : cnt (x :: l) t = (if Nat.eqb t x then 1 else 0) + cnt l t. Proof. reflexivity. Qed.
Lemma S34_cnt l : Forall (fun p => (p < 34)%nat) l -> S34 (cnt l) = Z.of_nat (length l).
Proof.
  induction 1 as [|p l P _ IH]; [reflexivity|].
  rewrite (S34_ext _ (fun t => (if Nat.eqb t p then 1 else 0) + cnt l t)) by reflexivity.
  rewrite S34_add, S34_at, IH by exact P. cbn [length]. lia.
Qed.
Lemma cnt_le l t : cnt l t <= uses_all (map Triplet l) t.
Proof. induction l as [|x l IH]; [cbn; lia|]. cbn [map]. rewrite cnt_cons, uses_all_cons. cbn [uses]. destruct (Nat.eqb t x); lia. Qed.
Lemma S34_two l : Forall (fun p => (p < 34)%nat) l -> S34 (two l) = 2 * Z.of_nat (length l).
Proof.
  induction 1 as [|p l P _ IH]; [reflexivity|].
  rewrite (S34_ext _ (fun t => (if Nat.eqb t p then 2 else 0) + two l t)) by reflexivity.
  rewrite S34_add, S34_at, IH by exact P. cbn [length]. lia.
Qed.

Lemma S34_pos f : 0 < S34 f -> exists t, (t < 34)%nat /\ 1 <= f t.
Proof.
  intros P. destruct (existsb (fun t => 1 <=? f t) (seq 0 34)) eqn:E.
  - apply existsb_exists in E. destruct E as (t & T & E). apply in_seq in T. apply Z.leb_le in E. exists t. split; [lia|exact E].
  - exfalso. assert (S34 f <= S34 (fun _ => 0)); [|change (S34 (fun _ => 0)) with 0 in *; lia].
    apply S34_le. intros t T. destruct (Z.leb_spec 1 (f t)) as [Q|Q]; [|lia].
    rewrite <- not_true_iff_false in E. exfalso. apply E. apply existsb_exists. exists t. split; [apply in_seq; lia|now apply Z.leb_le].
Qed.

(** Single tiles can be taken out of what is left. *)
Lemma pick j f : (forall t, (t < 34)%nat -> 0 <= f t) -> Z.of_nat j <= S34 f ->
  exists l, length l = j /\ Forall (fun p => (p < 34)%nat) l /\ forall t, (t < 34)%nat -> cnt l t <= f t.
Proof.
  revert f. induction j as [|j IH]; intros f N Q.
  - exists []. split; [reflexivity|]. split; [constructor|]. intros t T. cbn. auto.
  - destruct (S34_pos f ltac:(lia)) as (x & X & F).
    destruct (IH (fun t => f t + - (if Nat.eqb t x then 1 else 0))) as (l & L & A & B).
    + intros t T. specialize (N t T). destruct (Nat.eqb_spec t x) as [->|]; lia.
    + rewrite S34_add, S34_opp, S34_at by exact X. lia.
    + exists (x :: l). split; [cbn; lia|]. split; [now constructor|]. intros t T. specialize (B t T). cbv beta in B. rewrite cnt_cons. lia.
Qed.

Lemma missing_S34 h w : missing h w = S34 (fun t => Z.max 0 (nth t w 0 - nth t h 0)).
Proof. reflexivity. Qed.

(** Sets, partial sets, single tiles and part of the pair, completed *)
Lemma complete h sets chosen seeds x c n :
  Forall legal sets -> Forall part_ok chosen -> Forall (fun p => (p < 34)%nat) seeds -> (x < 34)%nat -> 0 <= c <= 2 ->
  (length sets + length chosen + length seeds = n)%nat ->
  (forall t, (t < 34)%nat -> uses_all sets t + have chosen t + cnt seeds t + (if Nat.eqb t x then c else 0) <= nth t h 0) ->
  exists w, standard_win w n /\
    missing h w <= 3 * Z.of_nat n + 2 - (3 * Z.of_nat (length sets) + 2 * Z.of_nat (length chosen) + Z.of_nat (length seeds) + c).
Proof.
  intros A B C X Hc Hn H.
  set (all := sets ++ map fst chosen ++ map Triplet seeds).
  assert (LA : length all = n) by (unfold all; rewrite !app_length, !map_length; lia).
  assert (FA : Forall legal all).
  { unfold all. apply Forall_app. split; [exact A|]. apply Forall_app. split; apply Forall_map.
    - eapply Forall_impl; [|exact B]. intros p P. apply P.
    - exact C. }
  set (w := map (fun t => uses_all all t + (if Nat.eqb t x then 2 else 0)) (seq 0 34)).
  assert (W : forall t, (t < 34)%nat -> nth t w 0 = uses_all all t + (if Nat.eqb t x then 2 else 0)).
  { intros t T. unfold w. rewrite nth_indep with (d' := uses_all all 34 + (if Nat.eqb 34 x then 2 else 0)) by (rewrite map_length, seq_length; exact T).
    change (uses_all all 34 + (if Nat.eqb 34 x then 2 else 0)) with ((fun t => uses_all all t + (if Nat.eqb t x then 2 else 0)) 34%nat).
    rewrite map_nth, seq_nth by exact T. reflexivity. }
  exists w. split; [exists all, x; auto|].
  rewrite missing_S34.
  assert (Q : S34 (fun t => Z.max 0 (nth t w 0 - nth t h 0)) <=
    S34 (fun t => (uses_all all t + (if Nat.eqb t x then 2 else 0)) + - (((uses_all sets t + have chosen t) + cnt seeds t) + (if Nat.eqb t x then c else 0)))).
  { apply S34_le. intros t T. rewrite W by exact T. specialize (H t T). unfold all. rewrite !uses_app.
    pose proof (have_le chosen t B). pose proof (cnt_le seeds t). destruct (Nat.eqb t x); lia. }
  rewrite S34_add, S34_opp, !S34_add, !S34_at, !S34_uses_all, S34_have, S34_cnt in Q by assumption. rewrite LA in Q. lia.
Qed.

(** A decomposition with [a] sets, [p] pairs and [q] partial sets can be completed. *)
Lemma complete_leaf h m a p q sets pairs parts :
  plain_hand h -> (m <= 4)%nat -> total h = 14 - 3 * Z.of_nat m \/ total h = 13 - 3 * Z.of_nat m ->
  length sets = a -> length pairs = p -> length parts = q ->
  Forall legal sets -> Forall (fun x => (x < 34)%nat) pairs -> Forall part_ok parts ->
  (forall t, (t < 34)%nat -> uses_all sets t + two pairs t + have parts t <= nth t h 0) ->
  exists w, standard_win w (4 - m) /\
    missing h w <= 9 - 2 * Z.of_nat (m + a) - Z.of_nat q - Z.of_nat p +
      Z.max 0 (Z.max 0 (Z.of_nat p - 1) + Z.of_nat q + Z.of_nat (m + a) - 4).
Proof.
  intros P M T La Lp Lq A B C H.
  assert (TH : total h = S34 (fun t => nth t h 0)).
  { rewrite (total_split h P). unfold S34. change (seq 0 34) with (seq 0 27 ++ seq 27 7). rewrite map_app, vsum_app. reflexivity. }
  assert (Q : S34 (fun t => (uses_all sets t + two pairs t) + have parts t) <= S34 (fun t => nth t h 0)) by (apply S34_le; exact H).
  rewrite !S34_add, S34_uses_all, S34_two, S34_have, La, Lp, Lq, <- TH in Q by assumption.
  assert (MA : (m + a <= 4)%nat) by lia.
  destruct pairs as [|x ps].
  - cbn [length] in Lp. subst p. set (chosen := firstn (4 - (m + a)) parts).
    assert (LC : length chosen = Nat.min (4 - (m + a)) q) by (unfold chosen; rewrite firstn_length; lia).
    assert (FC : Forall part_ok chosen).
    { unfold chosen. rewrite <- (firstn_skipn (4 - (m + a)) parts) in C. now apply Forall_app in C. }
    set (k := length chosen) in *.
    set (f := fun t => nth t h 0 + - (uses_all sets t + have chosen t)).
    assert (Hf : forall t, (t < 34)%nat -> 0 <= f t).
    { intros t I. unfold f. specialize (H t I). pose proof (have_firstn (4 - (m + a)) parts t C) as HF. fold chosen in HF.
      change (two [] t) with 0 in H. lia. }
    assert (Sf : S34 f = total h - (3 * Z.of_nat a + 2 * Z.of_nat k)).
    { unfold f. rewrite S34_add, S34_opp, S34_add, S34_uses_all, S34_have, <- TH, La by assumption. fold k. lia. }
    destruct (pick (S (4 - (m + a) - k)) f Hf ltac:(lia)) as (l & L1 & L2 & L3).
    destruct l as [|x seeds]; [discriminate L1|]. cbn [length] in L1.
    destruct (complete h sets chosen seeds x 1 (4 - m) A FC (Forall_inv_tail L2) (Forall_inv L2) ltac:(lia) ltac:(lia)) as (w & W1 & W2).
    { intros t I. specialize (L3 t I). unfold f in L3. rewrite cnt_cons in L3. lia. }
    exists w. split; [exact W1|]. fold k in W2. lia.
  - cbn [length] in Lp. subst p. pose proof (Forall_inv B) as X. apply Forall_inv_tail in B. cbv beta in X.
    set (cand := parts ++ map tuple ps).
    assert (FK : Forall part_ok cand).
    { unfold cand. apply Forall_app. split; [exact C|]. apply Forall_map. eapply Forall_impl; [|exact B]. intros y. apply tuple_ok. }
    assert (LK : length cand = (q + length ps)%nat) by (unfold cand; rewrite app_length, map_length; lia).
    set (chosen := firstn (4 - (m + a)) cand).
    assert (LC : length chosen = Nat.min (4 - (m + a)) (q + length ps)) by (unfold chosen; rewrite firstn_length; lia).
    assert (FC : Forall part_ok chosen).
    { unfold chosen. rewrite <- (firstn_skipn (4 - (m + a)) cand) in FK. now apply Forall_app in FK. }
    set (k := length chosen) in *.
    set (f := fun t => nth t h 0 + - ((uses_all sets t + have chosen t) + (if Nat.eqb t x then 2 else 0))).
    assert (Hf : forall t, (t < 34)%nat -> 0 <= f t).
    { intros t I. unfold f. specialize (H t I). pose proof (have_firstn (4 - (m + a)) cand t FK) as HF. fold chosen in HF.
      unfold cand in HF. rewrite have_app, have_tuples in HF.
      change (two (x :: ps) t) with ((if Nat.eqb t x then 2 else 0) + two ps t) in H. lia. }
    assert (Sf : S34 f = total h - (3 * Z.of_nat a + 2 * Z.of_nat k + 2)).
    { unfold f. rewrite S34_add, S34_opp, !S34_add, S34_at, S34_uses_all, S34_have, <- TH, La by assumption. fold k. lia. }
    assert (NS : 0 <= S34 f) by (apply S34_nonneg; exact Hf).
    destruct (pick (4 - (m + a) - k) f Hf ltac:(lia)) as (seeds & L1 & L2 & L3).
    destruct (complete h sets chosen seeds x 2 (4 - m) A FC L2 X ltac:(lia) ltac:(lia)) as (w & W1 & W2).
    { intros t I. specialize (L3 t I). unfold f in L3. lia. }
    exists w. split; [exact W1|]. fold k in W2. lia.
Qed.

Lemma sets_total13 h m : plain_hand h -> total h = 14 - 3 * Z.of_nat m \/ total h = 13 - 3 * Z.of_nat m ->
  sv_mentsu (sv_init h) = Z.of_nat m + Z.of_nat (length (honT h)) /\
  sv_toitsu (sv_init h) = Z.of_nat (length (honP h)).
Proof.
  intros P T. cbn [sv_init sv_mentsu sv_toitsu]. rewrite sum_ge_hon, sum_eq_hon by exact P.
  change (vsum h) with (total h). split; [|reflexivity].
  replace ((14 - total h) / 3) with (Z.of_nat m); [reflexivity|].
  destruct T as [-> | ->]; [apply (Z.div_unique _ 3 _ 0)|apply (Z.div_unique _ 3 _ 1)]; lia.
Qed.

Lemma two_27 l t : Forall (fun p => (p < 27)%nat) l -> (27 <= t)%nat -> two l t = 0.
Proof.
  induction 1 as [|p l P _ IH]; intros T; [reflexivity|].
  change (two (p :: l) t) with ((if Nat.eqb t p then 2 else 0) + two l t). rewrite IH, (proj2 (Nat.eqb_neq t p)) by lia. reflexivity.
Qed.
Lemma two_app a b t : two (a ++ b) t = two a t + two b t.
Proof. induction a as [|x a IH]; [reflexivity|]. cbn [app]. change (two (x :: a ++ b) t) with ((if Nat.eqb t x then 2 else 0) + two (a ++ b) t). rewrite IH. change (two (x :: a) t) with ((if Nat.eqb t x then 2 else 0) + two a t). lia. Qed.
Lemma two_nodup l t : NoDup l -> two l t = if existsb (Nat.eqb t) l then 2 else 0.
Proof.
  induction 1 as [|x l N _ IH]; [reflexivity|]. change (two (x :: l) t) with ((if Nat.eqb t x then 2 else 0) + two l t).
  rewrite IH. cbn [existsb].
  destruct (Nat.eqb_spec t x) as [->|]; cbn [orb]; [|lia].
  destruct (existsb (Nat.eqb x) l) eqn:E; [|lia].
  apply existsb_exists in E. destruct E as (y & Y & E). apply Nat.eqb_eq in E. subst y. contradiction.
Qed.
Lemma existsb_honP h t : (t < 34)%nat -> existsb (Nat.eqb t) (honP h) = (Nat.leb 27 t && (vget h t =? 2)).
Proof.
  intros T. apply eq_true_iff_eq. rewrite existsb_exists, andb_true_iff, Nat.leb_le. split.
  - intros (x & X & E). apply Nat.eqb_eq in E. subst x. apply filter_in_range in X. split; [lia|apply X].
  - intros [A B]. exists t. split; [|apply Nat.eqb_refl]. apply filter_in_range. split; [lia|exact B].
Qed.

(** Every leaf of the search is a promise that can be kept. *)
Lemma leaf_distance h m s' : plain_hand h -> (m <= 4)%nat ->
  total h = 14 - 3 * Z.of_nat m \/ total h = 13 - 3 * Z.of_nat m -> Reach 0 (sv_init h) s' ->
  exists w, standard_win w (4 - m) /\ missing h w <= leaf_value s' + 1.
Proof.
  intros P M T R. pose proof P as (L & B & _).
  destruct (sets_total13 h m P T) as [IM IP].
  destruct (reach_decP _ _ _ R L (plain_nonneg h P)) as (sets & pairs & parts & A1 & A2 & A3 & A4 & A5 & A6 & A7 & A8).
  rewrite IM in A6. rewrite IP in A7. change (sv_taatsu (sv_init h)) with 0 in A8. change (sv_hand (sv_init h)) with h in A5.
  destruct (complete_leaf h m (length (sets ++ map Triplet (honT h))) (length (pairs ++ honP h)) (length parts)
    (sets ++ map Triplet (honT h)) (pairs ++ honP h) parts P M T eq_refl eq_refl eq_refl) as (w & W1 & W2).
  - apply Forall_app. split.
    + eapply Forall_impl; [|exact A1]. intros [i|i] Q; cbn [legal27 legal] in *; [lia|exact Q].
    + apply Forall_forall. intros x X. apply in_map_iff in X. destruct X as (i & <- & X). apply filter_in_range in X. cbn. lia.
  - apply Forall_app. split.
    + eapply Forall_impl; [|exact A2]. cbv beta. intros; lia.
    + apply Forall_forall. intros x X. apply filter_in_range in X. lia.
  - exact A3.
  - intros t I. rewrite uses_app, uses_triplets, existsb_hon, two_app, (two_nodup (honP h)), existsb_honP by (exact I || apply NoDup_filter, seq_NoDup).
    destruct (Nat.leb_spec 27 t) as [K|K]; cbn [andb].
    + rewrite uses_27, two_27, A4 by assumption. fold (vget h t). specialize (B t I). fold (vget h t) in B.
      destruct (Z.leb_spec 3 (vget h t)), (Z.eqb_spec (vget h t) 2); lia.
    + specialize (A5 t K). unfold vget in A5. lia.
  - exists w. split; [exact W1|]. rewrite !app_length, map_length in W2. unfold leaf_value.
    destruct (truthy (sv_tune s') && negb (truthy (sv_toitsu s'))); lia.
Qed.
