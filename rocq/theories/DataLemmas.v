From Coq Require Import ZArith List Bool String Lia Arith.
From Verif Require Import Base DataLoader SpecData.
Import ListNotations.
Open Scope Z_scope.

Lemma skipn_skipn_ {A} m : forall n (l : list A), skipn m (skipn n l) = skipn (n + m) l.
Proof. induction n as [|n IH]; intros l; [reflexivity|]. destruct l as [|x l]; [cbn; now destruct m|]. cbn. apply IH. Qed.

Section L.
  Context {G : Type}.
  Variable proc : string -> res G.

  Lemma games_app a b : games proc (a ++ b) = games proc a ++ games proc b.
  Proof. unfold games. apply flat_map_app. Qed.

  (** The loop consumes a prefix of the files and collects exactly its games. *)
  Lemma fill_ok bs : forall rest acc, no_abort proc rest -> (Z.of_nat (List.length acc) <= bs) ->
    exists b n, fill proc bs rest acc = (Ok b, n) /\ (n <= List.length rest)%nat /\
      b = acc ++ games proc (firstn n rest) /\ Z.of_nat (List.length b) <= bs /\
      ((n < List.length rest)%nat -> Z.of_nat (List.length b) = bs).
  Proof.
    induction rest as [|f r IH]; intros acc NA Ha.
    - exists acc, 0%nat. cbn. rewrite app_nil_r. repeat split; lia.
    - cbn [fill]. destruct (Z.ltb_spec (Z.of_nat (List.length acc)) bs) as [Q|Q].
      + assert (NA' : no_abort proc r) by (intros x X; apply NA; now right).
        destruct (NA f (or_introl eq_refl)) as [N1 N2].
        destruct (proc f) as [g|e] eqn:P.
        * destruct (IH (acc ++ [g]) NA') as (b & n & E & A & B & C & D); [rewrite app_length; cbn; lia|].
          rewrite E. exists b, (S n). split; [reflexivity|]. cbn [List.length firstn]. split; [lia|]. split; [|split; [exact C|lia]].
          rewrite B. unfold games. cbn [flat_map]. rewrite P. rewrite <- app_assoc. reflexivity.
        * destruct (IH acc NA' Ha) as (b & n & E & A & B & C & D).
          exists b, (S n). cbn [List.length firstn].
          assert (fill proc bs r acc = (Ok b, n)) by exact E.
          destruct e; try (now destruct N1); try (now destruct N2); rewrite E;
            (split; [reflexivity|]; split; [lia|]; split; [|split; [exact C|lia]];
             rewrite B; unfold games; cbn [flat_map]; rewrite P; reflexivity).
      + exists acc, 0%nat. cbn. rewrite app_nil_r. repeat split; lia.
  Qed.

  (** In general: how much is consumed. *)
  Lemma fill_gen bs : forall rest acc, exists o n, fill proc bs rest acc = (o, n) /\ (n <= List.length rest)%nat /\
    (rest <> [] -> Z.of_nat (List.length acc) < bs -> (1 <= n)%nat) /\ o <> Err StopIteration.
  Proof.
    induction rest as [|f r IH]; intros acc.
    - exists (Ok acc), 0%nat. cbn. repeat split; [lia|congruence|discriminate].
    - cbn [fill]. destruct (Z.ltb_spec (Z.of_nat (List.length acc)) bs) as [Q|Q].
      + destruct (IH acc) as (o & n & E & A & B & C).
        destruct (proc f) as [g|e].
        * destruct (IH (acc ++ [g])) as (o' & n' & E' & A' & B' & C'). rewrite E'. exists o', (S n'). cbn [List.length]. repeat split; [lia|lia|exact C'].
        * destruct e; rewrite ?E; (eexists; eexists; split; [reflexivity|]; cbn [List.length]; repeat split; [lia|lia|first [exact C|discriminate]]).
      + exists (Ok acc), 0%nat. cbn. repeat split; [lia|lia|discriminate].
  Qed.

  Lemma next_end d : (List.length (dl_files d) <= dl_cur d)%nat -> dl_next proc d =
    (Err StopIteration, mkLoader (dl_files d) (dl_cur d) (dl_bs d) (S (dl_count d))).
  Proof. intros H. unfold dl_next. now rewrite (proj2 (Nat.leb_le _ _) H). Qed.

  (** ** One epoch *)
  Lemma iterate_ok n : forall d k, (List.length (dl_files d) - dl_cur d <= k)%nat -> (1 <= n)%nat -> dl_bs d = Z.of_nat n ->
    no_abort proc (skipn (dl_cur d) (dl_files d)) ->
    exists bs d', iterate proc (S k) d = Some (bs, Ok tt, d') /\ batched n (games proc (skipn (dl_cur d) (dl_files d))) bs /\
      (List.length bs <= List.length (dl_files d) - dl_cur d)%nat /\ dl_files d' = dl_files d /\ dl_bs d' = dl_bs d.
  Proof.
    intros d k. revert d. induction k as [|k IH]; intros d K N B NA.
    - cbn [iterate]. rewrite next_end by lia. exists [], (mkLoader (dl_files d) (dl_cur d) (dl_bs d) (S (dl_count d))).
      rewrite skipn_all2 by lia. split; [reflexivity|]. split; [|cbn; repeat split; lia].
      split; [reflexivity|]. exists [], []. cbn. repeat split; auto using Forall_nil; lia.
    - change (iterate proc (S (S k)) d) with
        (match dl_next proc d with
        | (Err StopIteration, d') => Some ([], Ok tt, d')
        | (Err e, d') => Some ([], Err e, d')
        | (Ok b, d') => match iterate proc (S k) d' with
                        | Some (bs, o, d'') => Some (b :: bs, o, d'')
                        | None => None
                        end
        end).
      destruct (Nat.le_gt_cases (List.length (dl_files d)) (dl_cur d)) as [Q|Q].
      + rewrite next_end by exact Q. exists [], (mkLoader (dl_files d) (dl_cur d) (dl_bs d) (S (dl_count d))).
        rewrite skipn_all2 by lia. split; [reflexivity|]. split; [|cbn; repeat split; lia].
        split; [reflexivity|]. exists [], []. cbn. repeat split; auto using Forall_nil; lia.
      + unfold dl_next. rewrite (proj2 (Nat.leb_gt _ _) Q).
        set (rest := skipn (dl_cur d) (dl_files d)) in *.
        assert (RL : List.length rest = (List.length (dl_files d) - dl_cur d)%nat) by apply skipn_length.
        destruct (fill_ok (dl_bs d) rest [] NA) as (b & m & E & A1 & A2 & A3 & A4); [cbn; lia|].
        destruct (fill_gen (dl_bs d) rest []) as (o' & m' & E' & _ & A5 & _). rewrite E in E'. injection E' as <- <-.
        assert (M1 : (1 <= m)%nat) by (apply A5; [intros Z0; rewrite Z0 in RL; cbn in RL; lia|cbn; lia]).
        rewrite E.
        set (d1 := mkLoader (dl_files d) (dl_cur d + m) (dl_bs d) (S (dl_count d))).
        assert (R1 : skipn (dl_cur d1) (dl_files d1) = skipn m rest).
        { unfold d1, rest. cbn [dl_cur dl_files]. apply eq_sym, skipn_skipn_. }
        destruct (IH d1) as (bs & d' & I1 & I2 & I3 & I4 & I5).
        * unfold d1. cbn [dl_cur dl_files]. lia.
        * exact N.
        * exact B.
        * rewrite R1. intros x X. apply NA. rewrite <- (firstn_skipn m rest). apply in_or_app. now right.
        * rewrite I1. exists (b :: bs), d'. split; [reflexivity|]. split; [|split; [|split; [exact I4|exact I5]]].
          2:{ unfold d1 in I3. cbn [dl_cur dl_files List.length] in *. lia. }
          rewrite R1 in I2. destruct I2 as (C1 & full & last & C2 & C3 & C4 & C5). cbn [app] in A2.
          split.
          -- cbn [List.concat]. rewrite C1, A2. rewrite <- games_app, firstn_skipn. reflexivity.
          -- destruct (Nat.lt_ge_cases m (List.length rest)) as [W|W].
             ++ exists (b :: full), last. subst bs. repeat split; auto. constructor; [|exact C4]. specialize (A4 W). lia.
             ++ (* the directory is used up *)
                assert (bs = []) as ->.
                { assert (List.length bs = 0)%nat; [|destruct bs; [reflexivity|discriminate]].
                  unfold d1 in I3. cbn [dl_cur dl_files] in I3. lia. }
                exists [], [b]. repeat split; [cbn; lia|constructor|]. constructor; [lia|constructor].
  Qed.

  (** After [reset] the same batches come again. *)
  Lemma next_same d d' : dl_files d = dl_files d' -> dl_cur d = dl_cur d' -> dl_bs d = dl_bs d' ->
    fst (dl_next proc d) = fst (dl_next proc d') /\
    dl_files (snd (dl_next proc d)) = dl_files (snd (dl_next proc d')) /\
    dl_cur (snd (dl_next proc d)) = dl_cur (snd (dl_next proc d')) /\
    dl_bs (snd (dl_next proc d)) = dl_bs (snd (dl_next proc d')).
  Proof.
    intros A B C. unfold dl_next. rewrite A, B, C. destruct (Nat.leb (List.length (dl_files d')) (dl_cur d')); [auto|].
    destruct (fill proc (dl_bs d') (skipn (dl_cur d') (dl_files d')) []) as [o n]. auto.
  Qed.

  Lemma next_static d : dl_files (snd (dl_next proc d)) = dl_files d /\ dl_bs (snd (dl_next proc d)) = dl_bs d.
  Proof.
    unfold dl_next. destruct (Nat.leb (List.length (dl_files d)) (dl_cur d)); [auto|].
    destruct (fill proc (dl_bs d) (skipn (dl_cur d) (dl_files d)) []) as [o n]. auto.
  Qed.

  Definition seen (r : option (list (list G) * res unit * loader)) : option (list (list G) * res unit) :=
    option_map fst r.

  Lemma iterate_same f : forall d d', dl_files d = dl_files d' -> dl_cur d = dl_cur d' -> dl_bs d = dl_bs d' ->
    seen (iterate proc f d) = seen (iterate proc f d').
  Proof.
    induction f as [|f IH]; intros d d' A B C; [reflexivity|]. cbn [iterate].
    destruct (next_same d d' A B C) as (E1 & E2 & E3 & E4).
    destruct (dl_next proc d) as [o e], (dl_next proc d') as [o' e']. cbn [fst snd] in *. subst o'.
    specialize (IH e e' E2 E3 E4). destruct o as [b|[]]; try reflexivity.
    unfold seen in *. destruct (iterate proc f e) as [[[bs o] x]|], (iterate proc f e') as [[[bs' o'] x']|]; cbn in *; try discriminate; [|reflexivity].
    injection IH as -> ->. reflexivity.
  Qed.

  Lemma iterate_static f : forall d bs o d', iterate proc f d = Some (bs, o, d') -> dl_files d' = dl_files d /\ dl_bs d' = dl_bs d.
  Proof.
    induction f as [|f IH]; intros d bs o d' H; [discriminate|]. cbn [iterate] in H.
    destruct (next_static d) as [E1 E2]. destruct (dl_next proc d) as [r e]. cbn [snd] in *.
    destruct r as [b|x].
    - destruct (iterate proc f e) as [[[bs' o'] x']|] eqn:I; [|discriminate]. injection H as _ _ <-.
      destruct (IH _ _ _ _ I) as [A B]. split; congruence.
    - destruct x; injection H as _ _ <-; auto.
  Qed.

  (** Termination, whatever the files do. *)
  Lemma iterate_ends k : forall d, (List.length (dl_files d) - dl_cur d <= k)%nat -> 1 <= dl_bs d ->
    exists r, iterate proc (S k) d = Some r /\ (List.length (fst (fst r)) <= List.length (dl_files d) - dl_cur d)%nat.
  Proof.
    induction k as [|k IH]; intros d K B.
    - cbn [iterate]. rewrite next_end by lia. eexists. split; [reflexivity|]. cbn. lia.
    - change (iterate proc (S (S k)) d) with
        (match dl_next proc d with
        | (Err StopIteration, d') => Some ([], Ok tt, d')
        | (Err e, d') => Some ([], Err e, d')
        | (Ok b, d') => match iterate proc (S k) d' with
                        | Some (bs, o, d'') => Some (b :: bs, o, d'')
                        | None => None
                        end
        end).
      destruct (Nat.le_gt_cases (List.length (dl_files d)) (dl_cur d)) as [Q|Q].
      + rewrite next_end by exact Q. eexists. split; [reflexivity|]. cbn. lia.
      + unfold dl_next. rewrite (proj2 (Nat.leb_gt _ _) Q).
        destruct (fill_gen (dl_bs d) (skipn (dl_cur d) (dl_files d)) []) as (o & m & E & A & A5 & NS). rewrite E.
        rewrite skipn_length in A.
        assert (M1 : (1 <= m)%nat).
        { apply A5; [|cbn; lia]. intros Z0. pose proof (skipn_length (dl_cur d) (dl_files d)) as SL. rewrite Z0 in SL. cbn in SL. lia. }
        destruct o as [b|x].
        * destruct (IH (mkLoader (dl_files d) (dl_cur d + m) (dl_bs d) (S (dl_count d)))) as ([[bs o] e] & I1 & I2); cbn [dl_files dl_cur dl_bs]; [lia|exact B|].
          rewrite I1. eexists. split; [reflexivity|]. cbn [fst List.length dl_files dl_cur] in *. lia.
        * destruct x; eexists; (split; [reflexivity|]); cbn; lia.
  Qed.

  (** With a batch size of zero or less the iteration never ends. *)
  Lemma iterate_stuck f : forall d, dl_bs d <= 0 -> (dl_cur d < List.length (dl_files d))%nat -> iterate proc f d = None.
  Proof.
    induction f as [|f IH]; intros d B C; [reflexivity|]. cbn [iterate]. unfold dl_next.
    rewrite (proj2 (Nat.leb_gt _ _) C).
    assert (E : fill proc (dl_bs d) (skipn (dl_cur d) (dl_files d)) [] = (Ok [], 0%nat)).
    { destruct (skipn (dl_cur d) (dl_files d)) as [|x r]; [reflexivity|]. cbn [fill List.length].
      now rewrite (proj2 (Z.ltb_ge _ _)) by (cbn; lia). }
    rewrite E, IH; [reflexivity|exact B|]. cbn [dl_cur dl_files]. lia.
  Qed.

  (** ** Validation *)
  Context {L : Type}.
  Variable losses : list G -> res (list L).

  Lemma val_static f bs : forall k d l o d', val_loop proc losses f bs k d = Some (l, o, d') ->
    dl_files d' = dl_files d /\ dl_bs d' = dl_bs d.
  Proof.
    induction f as [|f IH]; intros k d l o d' H; [discriminate|]. cbn [val_loop] in H.
    destruct (next_static d) as [E1 E2]. destruct (dl_next proc d) as [r e]. cbn [snd] in *.
    destruct r as [b|x].
    - destruct (losses b) as [n|x].
      + destruct (20 <=? Z.of_nat k * bs); [injection H as _ _ <-; auto|].
        destruct (val_loop proc losses f bs (S k) e) as [[[l' o'] x']|] eqn:I; [|discriminate].
        destruct (IH _ _ _ _ _ I) as [A B]. destruct o'; injection H as _ _ <-; split; congruence.
      + injection H as _ _ <-; auto.
    - destruct x; injection H as _ _ <-; auto.
  Qed.

  Lemma val_same f bs : forall k d d', dl_files d = dl_files d' -> dl_cur d = dl_cur d' -> dl_bs d = dl_bs d' ->
    option_map fst (val_loop proc losses f bs k d) = option_map fst (val_loop proc losses f bs k d').
  Proof.
    induction f as [|f IH]; intros k d d' A B C; [reflexivity|]. cbn [val_loop].
    destruct (next_same d d' A B C) as (E1 & E2 & E3 & E4).
    destruct (dl_next proc d) as [o e], (dl_next proc d') as [o' e']. cbn [fst snd] in *. subst o'.
    destruct o as [b|[]]; try reflexivity. destruct (losses b) as [n|x]; [|reflexivity].
    destruct (20 <=? Z.of_nat k * bs); [reflexivity|].
    specialize (IH (S k) e e' E2 E3 E4).
    destruct (val_loop proc losses f bs (S k) e) as [[[l o] x]|], (val_loop proc losses f bs (S k) e') as [[[l' o'] x']|]; cbn in IH; try discriminate; [|reflexivity].
    injection IH as -> ->. destruct o'; reflexivity.
  Qed.

  (** The batches of a validation pass are the first ones of an epoch. *)
  Lemma val_prefix f bs : forall k d l o d', val_loop proc losses f bs k d = Some (l, o, d') ->
    forall f' all r e, iterate proc f' d = Some (all, r, e) -> exists more, all = l ++ more.
  Proof.
    induction f as [|f IH]; intros k d l o d' H f' all r e I; [discriminate|]. cbn [val_loop] in H.
    destruct f' as [|f']; [discriminate|]. cbn [iterate] in I.
    destruct (dl_next proc d) as [x y]. destruct x as [b|x].
    - destruct (iterate proc f' y) as [[[all' r'] e']|] eqn:I'; [|discriminate]. injection I as <- <- <-.
      destruct (losses b) as [n|x]; [|injection H as <- <- <-; now exists all'].
      destruct (20 <=? Z.of_nat k * bs); [injection H as <- <- <-; now exists all'|].
      destruct (val_loop proc losses f bs (S k) y) as [[[l' o'] x']|] eqn:V; [|discriminate].
      destruct (IH _ _ _ _ _ V _ _ _ _ I') as (more & ->).
      exists more. destruct o'; injection H as <- <- <-; reflexivity.
    - exists all. destruct x; injection H as <- <- <-; reflexivity.
  Qed.

  Lemma val_bound f bs : 1 <= bs -> forall k d l o d', val_loop proc losses f bs k d = Some (l, o, d') ->
    l = [] \/ Z.of_nat k * bs + (Z.of_nat (List.length l) - 1) * bs < 20 + bs \/ List.length l = 1%nat.
  Proof.
    intros B. induction f as [|f IH]; intros k d l o d' H; [discriminate|]. cbn [val_loop] in H.
    destruct (dl_next proc d) as [x y]. destruct x as [b|x].
    - destruct (losses b) as [n|x]; [|injection H as <- _ _; now right; right].
      destruct (Z.leb_spec 20 (Z.of_nat k * bs)) as [Q|Q]; [injection H as <- _ _; now right; right|].
      destruct (val_loop proc losses f bs (S k) y) as [[[l' o'] x']|] eqn:V; [|discriminate].
      assert (E : l = b :: l') by (destruct o'; injection H as <- _ _; reflexivity). subst l. cbn [List.length].
      destruct (IH _ _ _ _ _ V) as [->|[W|W]]; [now right; right| |].
      + right. left. lia.
      + right. left. rewrite W. lia.
    - left. destruct x; injection H as <- _ _; reflexivity.
  Qed.

  (** The losses are those of the batches, in order, and the pass does not stop early. *)
  Lemma val_exact f bs : forall k d l ls d', val_loop proc losses f bs k d = Some (l, Ok ls, d') ->
    (exists parts, Forall2 (fun b p => losses b = Ok p) l parts /\ ls = List.concat parts) /\
    (forall f' all r e, iterate proc f' d = Some (all, r, e) ->
       exists more, all = l ++ more /\ ((more = [] /\ r = Ok tt) \/ (l <> [] /\ 20 <= (Z.of_nat k + Z.of_nat (List.length l) - 1) * bs))).
  Proof.
    induction f as [|f IH]; intros k d l ls d' H; [discriminate|]. cbn [val_loop] in H.
    destruct (dl_next proc d) as [x y] eqn:N. destruct x as [b|x].
    - destruct (losses b) as [n|x] eqn:E; [|discriminate H].
      destruct (Z.leb_spec 20 (Z.of_nat k * bs)) as [Q|Q].
      + injection H as <- <- _. split.
        * exists [n]. split; [now repeat constructor|]. cbn [List.concat]. now rewrite app_nil_r.
        * intros f' all r e I. destruct f' as [|f']; [discriminate I|]. cbn [iterate] in I. rewrite N in I.
          destruct (iterate proc f' y) as [[[all' r'] e']|]; [|discriminate I]. injection I as <- <- <-. exists all'. split; [reflexivity|].
          right. split; [discriminate|]. cbn [List.length]. lia.
      + destruct (val_loop proc losses f bs (S k) y) as [[[l' [m|x]] x']|] eqn:V; try discriminate H.
        injection H as <- <- _. destruct (IH _ _ _ _ _ V) as [(parts & F & ->) X]. split.
        * exists (n :: parts). split; [now constructor|reflexivity].
        * intros f' all r e I. destruct f' as [|f']; [discriminate I|]. cbn [iterate] in I. rewrite N in I.
          destruct (iterate proc f' y) as [[[all' r'] e']|] eqn:I'; [|discriminate I]. injection I as <- <- <-.
          destruct (X _ _ _ _ I') as (more & -> & C). exists more. split; [reflexivity|].
          destruct C as [C|[C1 C2]]; [now left|]. right. split; [discriminate|]. cbn [List.length]. lia.
    - destruct x; try discriminate H. injection H as <- <- _. split; [exists []; now split|].
      intros f' all r e I. destruct f' as [|f']; [discriminate I|]. cbn [iterate] in I. rewrite N in I. injection I as <- <- <-. exists []. auto.
  Qed.

  (** ** A file that fails an assertion *)
  Lemma fill_abort bs : forall l1 f l2 acc, no_abort proc l1 -> proc f = Err AssertionError -> Z.of_nat (List.length acc) <= bs ->
    (exists n, fill proc bs (l1 ++ f :: l2) acc = (Err SystemExit, n) /\ Z.of_nat (List.length (acc ++ games proc l1)) < bs) \/
    (exists b n, fill proc bs (l1 ++ f :: l2) acc = (Ok b, n) /\ (n <= List.length l1)%nat /\
       b = acc ++ games proc (firstn n l1) /\ Z.of_nat (List.length b) = bs).
  Proof.
    induction l1 as [|g r IH]; intros f l2 acc NA P Ha.
    - cbn [app fill]. destruct (Z.ltb_spec (Z.of_nat (List.length acc)) bs) as [Q|Q].
      + left. rewrite P. exists 1%nat. split; [reflexivity|]. cbn [games flat_map]. now rewrite app_nil_r.
      + right. exists acc, 0%nat. cbn. rewrite app_nil_r. repeat split; lia.
    - cbn [app fill]. destruct (Z.ltb_spec (Z.of_nat (List.length acc)) bs) as [Q|Q].
      2:{ right. exists acc, 0%nat. cbn. rewrite app_nil_r. repeat split; lia. }
      assert (NA' : no_abort proc r) by (intros x X; apply NA; now right).
      destruct (NA g (or_introl eq_refl)) as [N1 N2].
      destruct (proc g) as [x|e] eqn:Pg.
      + destruct (IH f l2 (acc ++ [x]) NA' P) as [(n & E & C)|(b & n & E & C1 & C2 & C3)]; [rewrite app_length; cbn; lia| |]; rewrite E.
        * left. exists (S n). split; [reflexivity|]. unfold games in *. cbn [flat_map]. rewrite Pg. now rewrite <- app_assoc in C.
        * right. exists b, (S n). split; [reflexivity|]. cbn [List.length firstn]. split; [lia|]. split; [|exact C3].
          rewrite C2. unfold games. cbn [flat_map]. rewrite Pg, <- app_assoc. reflexivity.
      + assert (Z0 : games proc (g :: r) = games proc r) by (unfold games; cbn [flat_map]; now rewrite Pg).
        destruct (IH f l2 acc NA' P Ha) as [(n & E & C)|(b & n & E & C1 & C2 & C3)].
        * left. exists (S n). rewrite Z0. split; [|exact C]. destruct e; try (now destruct N1); try (now destruct N2); rewrite E; reflexivity.
        * right. exists b, (S n). split; [destruct e; try (now destruct N1); try (now destruct N2); rewrite E; reflexivity|]. cbn [List.length firstn]. split; [lia|]. split; [|exact C3].
          rewrite C2. unfold games. cbn [flat_map]. rewrite Pg. reflexivity.
  Qed.

  Lemma iterate_abort n : (1 <= n)%nat -> forall k d l1 f l2, skipn (dl_cur d) (dl_files d) = l1 ++ f :: l2 -> (List.length l1 <= k)%nat ->
    dl_bs d = Z.of_nat n -> no_abort proc l1 -> proc f = Err AssertionError ->
    exists bs lost d', iterate proc (S k) d = Some (bs, Err SystemExit, d') /\ List.concat bs ++ lost = games proc l1 /\
      Forall (fun b => List.length b = n) bs /\ (List.length lost < n)%nat.
  Proof.
    intros N. induction k as [|k IH]; intros d l1 f l2 R K B NA P.
    - destruct l1 as [|x l1]; [|cbn in K; lia]. cbn [iterate]. unfold dl_next.
      assert (Q : (dl_cur d < List.length (dl_files d))%nat).
      { pose proof (skipn_length (dl_cur d) (dl_files d)) as SL. rewrite R in SL. cbn in SL. lia. }
      rewrite (proj2 (Nat.leb_gt _ _) Q), R. cbn [app fill List.length]. rewrite B, (proj2 (Z.ltb_lt _ _)) by (cbn; lia). rewrite P.
      exists [], [], (mkLoader (dl_files d) (dl_cur d + 1) (Z.of_nat n) (S (dl_count d))). repeat split; [constructor|cbn; lia].
    - change (iterate proc (S (S k)) d) with
        (match dl_next proc d with
        | (Err StopIteration, d') => Some ([], Ok tt, d')
        | (Err e, d') => Some ([], Err e, d')
        | (Ok b, d') => match iterate proc (S k) d' with
                        | Some (bs, o, d'') => Some (b :: bs, o, d'')
                        | None => None
                        end
        end).
      assert (Q : (dl_cur d < List.length (dl_files d))%nat).
      { pose proof (skipn_length (dl_cur d) (dl_files d)) as SL. rewrite R, app_length in SL. cbn in SL. lia. }
      unfold dl_next. rewrite (proj2 (Nat.leb_gt _ _) Q), R.
      destruct (fill_abort (dl_bs d) l1 f l2 [] NA P) as [(m & E & C)|(b & m & E & C1 & C2 & C3)]; [cbn; lia| |]; rewrite E.
      + eexists [], (games proc l1), _. split; [reflexivity|]. cbn [app] in C. repeat split; [constructor|lia].
      + destruct (IH (mkLoader (dl_files d) (dl_cur d + m) (dl_bs d) (S (dl_count d))) (skipn m l1) f l2) as (bs & lost & d' & I1 & I2 & I3 & I4).
        * cbn [dl_cur dl_files]. rewrite <- skipn_skipn_, R, skipn_app. replace (m - List.length l1)%nat with 0%nat by lia. reflexivity.
        * rewrite skipn_length. cbn [app] in C2. subst b. assert (1 <= m)%nat by (destruct m; [cbn in C3; lia|lia]). lia.
        * exact B.
        * intros x X. apply NA. rewrite <- (firstn_skipn m l1). apply in_or_app. now right.
        * exact P.
        * rewrite I1. exists (b :: bs), lost, d'. split; [reflexivity|]. cbn [List.concat]. split; [|split; [constructor; [lia|exact I3]|exact I4]].
          rewrite <- app_assoc, I2, C2. cbn [app]. rewrite <- games_app, firstn_skipn. reflexivity.
  Qed.
End L.
