(** Proofs about SideRuns.v. *)
From Coq Require Import ZArith List Bool String Lia PeanoNat Permutation.
From Verif Require Import Base Train SpecTrain TrainLemmas SideRuns SpecSide.
Import ListNotations.

Section L.
  Context {W O : Type}.
  Variable epoch : string -> nat -> W * O -> W * O.
  Variable fresh : string -> O.
  Variable ls : list string -> list string.
  Hypothesis LS : listing ls.

  (** ** The directory *)
  Lemma read_same (d : disk W) p c : disk_read (disk_write d p c) p = Some c.
  Proof.
    induction d as [|[q x] d IH]; cbn; [now rewrite String.eqb_refl|]. destruct (String.eqb_spec p q) as [->|N]; cbn; [now rewrite String.eqb_refl|].
    destruct (String.eqb_spec p q); [congruence|exact IH].
  Qed.
  Lemma read_other (d : disk W) p q c : p <> q -> disk_read (disk_write d p c) q = disk_read d q.
  Proof.
    intros N. induction d as [|[r x] d IH]; cbn; [destruct (String.eqb_spec q p); [congruence|reflexivity]|].
    destruct (String.eqb_spec p r) as [->|M]; cbn; [destruct (String.eqb_spec q r); [congruence|reflexivity]|].
    destruct (String.eqb_spec q r); [reflexivity|exact IH].
  Qed.
  Lemma read_in (d : disk W) f : In f (map fst d) <-> disk_read d f <> None.
  Proof.
    induction d as [|[q x] d IH]; cbn; [tauto|]. destruct (String.eqb_spec f q) as [->|N]; [split; [discriminate|now left]|].
    rewrite <- IH. split; [intros [E|E]; [congruence|exact E]|now right].
  Qed.
  Lemma write_in (d : disk W) p c f : In f (map fst (disk_write d p c)) <-> f = p \/ In f (map fst d).
  Proof.
    rewrite !read_in. destruct (String.eqb_spec p f) as [->|N]; [rewrite read_same; split; [now left|discriminate]|].
    rewrite read_other by exact N. split; [now right|intros [E|E]; [congruence|exact E]].
  Qed.

  (** Files that look like checkpoints of [a] are checkpoints of [a]. *)
  Definition own (a : string) (d : disk W) : Prop := forall f, In f (map fst d) -> glob_match a f = true -> exists i, f = ckpt a i.
  Lemma orderly_own a d : In a model_names -> orderly d -> own a d.
  Proof.
    intros A D f F G. apply glob_spec in G as (mid & E). destruct (D f a mid F A E) as (i & ->). now exists i.
  Qed.
  Lemma own_write a b i d c : In a model_names -> In b model_names -> own a d -> own a (disk_write d (ckpt b i) c).
  Proof.
    intros A B D f F G. apply write_in in F as [->|F]; [|now apply D]. destruct (string_dec a b) as [->|N]; [now exists i|].
    now rewrite (other_models a b i A B N) in G.
  Qed.

  (** The checkpoint found is the one with the largest number. *)
  Lemma latest_is a d : own a d ->
    (exists i, find_latest a save_dir (ls (map fst d)) = (Z.of_nat i, Some ("saved_models/" ++ ckpt a i)%string) /\
       disk_read d (ckpt a i) <> None /\ forall j, disk_read d (ckpt a j) <> None -> (j <= i)%nat) \/
    (find_latest a save_dir (ls (map fst d)) = (0%Z, None) /\ forall j, disk_read d (ckpt a j) = None).
  Proof.
    intros D. assert (I : forall f, In f (ls (map fst d)) <-> In f (map fst d)).
    { intros f. split; intros H; [apply (Permutation_in _ (LS _)) in H|apply (Permutation_in _ (Permutation_sym (LS _)))]; exact H. }
    assert (T : tidy a (ls (map fst d))).
    { intros mid H. apply I in H. destruct (D _ H) as (i & E); [apply glob_spec; now exists mid|].
      exists (Z.of_nat i). apply (checkpoint_mid a). rewrite E. apply ckpt_checkpoint. }
    destruct (find_latest_ok a _ T) as [(z & f & R & F & C & M)|[R N]].
    - left. apply I in F. assert (G : glob_match a f = true) by (destruct C as (s & _ & ->); apply glob_spec; now exists s).
      destruct (D _ F G) as (i & ->). apply ckpt_of_ckpt in C. subst z. exists i. split; [exact R|]. split; [now apply read_in|].
      intros j J. apply read_in in J. apply I in J. pose proof (M _ _ J (ckpt_checkpoint a j)). lia.
    - right. split; [exact R|]. intros j. destruct (disk_read d (ckpt a j)) eqn:E; [exfalso|reflexivity].
      apply (N (ckpt a j) (Z.of_nat j)); [|apply ckpt_checkpoint]. apply I, read_in. congruence.
  Qed.

  Lemma ckpt_models a b i j : In a model_names -> In b model_names -> ckpt a i = ckpt b j -> a = b.
  Proof.
    intros A B E. destruct (string_dec a b) as [|N]; [assumption|exfalso]. pose proof (other_models a b j A B N) as G.
    rewrite <- E, ckpt_glob in G. discriminate G.
  Qed.

  (** ** Processes keep their names *)
  Lemma advance_name d p : pr_name (snd (advance epoch fresh ls d p)) = pr_name p.
  Proof. unfold advance. destruct (pr_phase p); try reflexivity. destruct (pr_left p); reflexivity. Qed.

  Lemma nth_upd {A} (l : list A) k f j : nth_error (upd l k f) j = if Nat.eqb j k then option_map f (nth_error l j) else nth_error l j.
  Proof.
    revert k j. induction l as [|x l IH]; intros [|k] [|j]; cbn; try reflexivity.
    - destruct (Nat.eqb j k); reflexivity.
    - now rewrite IH.
  Qed.

  Definition names (ps : list (proc W O)) : list string := map pr_name ps.
  Lemma upd_names ps k (q p : proc W O) : nth_error ps k = Some p -> pr_name q = pr_name p -> names (upd ps k (fun _ => q)) = names ps.
  Proof.
    revert k. induction ps as [|x ps IH]; intros [|k] H E; try discriminate H; cbn in *; [injection H as ->; congruence|].
    f_equal. now apply IH.
  Qed.
  Lemma act_names w m : names (snd (act epoch fresh ls w m)) = names (snd w).
  Proof.
    unfold act. destruct (nth_error (snd w) (mover m)) as [p|] eqn:N; [|reflexivity]. destruct m as [k|k]; cbn [mover] in N.
    - pose proof (advance_name (fst w) p) as A. destruct (advance epoch fresh ls (fst w) p) as [d q]. cbn [snd] in *. now apply (upd_names _ _ _ p).
    - cbn [snd]. now apply (upd_names _ _ _ p).
  Qed.
  Lemma moves_names a ps qs m : names ps = names qs -> moves_of a ps m = moves_of a qs m.
  Proof.
    intros E. unfold moves_of. assert (H : nth_error (names ps) (mover m) = nth_error (names qs) (mover m)) by now rewrite E.
    unfold names in H. rewrite !nth_error_map in H. destruct (nth_error ps (mover m)), (nth_error qs (mover m)); cbn in H; try discriminate H; congruence.
  Qed.

  (** ** Two directories that agree on the files of one model *)
  Definition agree (a : string) (d e : disk W) : Prop := own a d /\ own a e /\ forall i, disk_read d (ckpt a i) = disk_read e (ckpt a i).

  Lemma agree_latest a d e : agree a d e -> find_latest a save_dir (ls (map fst d)) = find_latest a save_dir (ls (map fst e)).
  Proof.
    intros (D & E & R). destruct (latest_is a d D) as [(i & F & I & M)|(F & N)], (latest_is a e E) as [(j & G & J & M')|(G & N')]; rewrite F, G.
    - assert (i = j); [|now subst]. rewrite R in I. specialize (M' i I). rewrite <- R in J. specialize (M j J). lia.
    - rewrite R in I. now rewrite N' in I.
    - rewrite <- R in J. now rewrite N in J.
    - reflexivity.
  Qed.

  (** A phase only refers to a checkpoint of its own model. *)
  Definition wellp (p : proc W O) : Prop := match pr_phase p with Loading (_, Some f) => exists i, f = ("saved_models/" ++ ckpt (pr_name p) i)%string | _ => True end.
  Lemma advance_wellp d p : own (pr_name p) d -> wellp p -> wellp (snd (advance epoch fresh ls d p)).
  Proof.
    intros D P. unfold advance, wellp in *. destruct (pr_phase p) as [|f|i s|i s| |] eqn:E; cbn [snd pr_phase pr_name]; try exact I.
    - destruct (latest_is (pr_name p) d D) as [(i & -> & _)|(-> & _)]; [now exists i|exact I].
    - unfold loaded. destruct f as [k [f|]]; [|exact I]. destruct (strip_prefix _ f); [|exact I]. destruct (disk_read d s) as [[w|]|]; exact I.
    - destruct (pr_left p); exact I.
    - now rewrite E.
    - now rewrite E.
  Qed.
  Lemma advance_agree a d e p : In a model_names -> pr_name p = a -> agree a d e -> wellp p ->
    snd (advance epoch fresh ls d p) = snd (advance epoch fresh ls e p) /\
    agree a (fst (advance epoch fresh ls d p)) (fst (advance epoch fresh ls e p)).
  Proof.
    intros A N G P. unfold advance, wellp in *. rewrite N in *.
    assert (Wr : forall i c, agree a (disk_write d (ckpt a i) c) (disk_write e (ckpt a i) c)).
    { intros i c. destruct G as (D & E & R). repeat split; [now apply own_write|now apply own_write|]. intros j.
      destruct (Nat.eq_dec i j) as [->|M]; [now rewrite !read_same|]. rewrite !read_other by (intros X; apply M; exact (ckpt_inj a i j X)). apply R. }
    destruct (pr_phase p) as [|f|i s|i s| |] eqn:Ep; cbn [fst snd].
    - now rewrite (agree_latest a d e G).
    - split; [|exact G]. f_equal. unfold loaded. destruct f as [k [f|]]; [|reflexivity]. destruct P as (i & ->).
      change ("saved_models/" ++ ckpt a i)%string with ((save_dir ++ "/") ++ ckpt a i)%string. rewrite strip_prefix_app.
      destruct G as (_ & _ & ->). reflexivity.
    - destruct (pr_left p); cbn [fst snd]; auto.
    - auto.
    - auto.
    - auto.
  Qed.
  Lemma advance_apart a d p : In a model_names -> In (pr_name p) model_names -> pr_name p <> a -> forall i,
    disk_read (fst (advance epoch fresh ls d p)) (ckpt a i) = disk_read d (ckpt a i).
  Proof.
    intros A B N i. unfold advance. destruct (pr_phase p) as [|f|j s|j s| |]; try reflexivity; [destruct (pr_left p); [reflexivity|]|];
      cbn [fst]; apply read_other; intros E; exact (N (ckpt_models _ _ _ _ B A E)).
  Qed.
  Lemma advance_own a d p : In a model_names -> In (pr_name p) model_names -> own a d -> own a (fst (advance epoch fresh ls d p)).
  Proof.
    intros A B D. unfold advance. destruct (pr_phase p) as [|f|j s|j s| |]; try exact D; [destruct (pr_left p); [exact D|]|];
      cbn [fst]; now apply own_write.
  Qed.

  (** ** Together and alone *)
  Record apart (a : string) (v w : disk W * list (proc W O)) : Prop := {
    ap_names : names (snd v) = names (snd w);
    ap_known : Forall (fun b => In b model_names) (names (snd v));
    ap_well : forall b, In b model_names -> own b (fst v) /\ own b (fst w);
    ap_wellp : Forall wellp (snd v) /\ Forall wellp (snd w);
    ap_disk : forall i, disk_read (fst v) (ckpt a i) = disk_read (fst w) (ckpt a i);
    ap_procs : forall k p, nth_error (snd v) k = Some p -> pr_name p = a -> nth_error (snd w) k = Some p }.

  Lemma Forall_upd {A} (P : A -> Prop) l k x : Forall P l -> P x -> Forall P (upd l k (fun _ => x)).
  Proof.
    intros H X. revert k. induction H as [|y l Y H IH]; intros [|k]; cbn; constructor; auto.
  Qed.
  Lemma known_name v k p : Forall (fun b => In b model_names) (names (snd v)) -> nth_error (snd (A:=disk W) v) k = Some p -> In (pr_name p) model_names.
  Proof. intros K H. rewrite Forall_forall in K. apply K. unfold names. apply in_map. now apply nth_error_In in H. Qed.

  (** One more well-formedness fact: names and tidy files stay as they are. *)
  Lemma act_well w m : Forall (fun b => In b model_names) (names (snd w)) -> (forall b, In b model_names -> own b (fst w)) -> Forall wellp (snd w) ->
    (forall b, In b model_names -> own b (fst (act epoch fresh ls w m))) /\ Forall wellp (snd (act epoch fresh ls w m)).
  Proof.
    intros K D P. unfold act. destruct (nth_error (snd w) (mover m)) as [p|] eqn:N; [|auto].
    pose proof (known_name w _ _ K N) as B. pose proof (nth_error_In _ _ N) as I.
    pose proof (proj1 (Forall_forall _ _) P p I) as Pp. destruct m as [k|k].
    - pose proof (advance_wellp (fst w) p (D _ B) Pp) as X. pose proof (fun b Hb => advance_own b (fst w) p Hb B (D b Hb)) as Y.
      destruct (advance epoch fresh ls (fst w) p) as [d q]. cbn [fst snd] in *. split; [exact Y|]. now apply Forall_upd.
    - cbn [fst snd]. split; [exact D|]. apply Forall_upd; [exact P|constructor].
  Qed.

  Lemma apart_step a v w m : In a model_names -> apart a v w ->
    apart a (act epoch fresh ls v m) (if moves_of a (snd v) m then act epoch fresh ls w m else w).
  Proof.
    intros A [N K D P R Q]. pose proof (act_names v m) as Nv. pose proof (act_names w m) as Nw.
    assert (K' : Forall (fun b => In b model_names) (names (snd w))) by now rewrite <- N.
    destruct (act_well v m K (fun b Hb => proj1 (D b Hb)) (proj1 P)) as [Dv Pv].
    destruct (act_well w m K' (fun b Hb => proj2 (D b Hb)) (proj2 P)) as [Dw Pw].
    destruct (moves_of a (snd v) m) eqn:M.
    - unfold moves_of in M. destruct (nth_error (snd v) (mover m)) as [p|] eqn:E; [|discriminate M]. apply String.eqb_eq in M.
      pose proof (Q _ _ E M) as F.
      assert (G : agree a (fst v) (fst w)) by (repeat split; try apply (D a A); exact R).
      pose proof (proj1 (Forall_forall _ _) (proj1 P) p (nth_error_In _ _ E)) as Pp.
      destruct (advance_agree a (fst v) (fst w) p A M G Pp) as (S1 & S2 & S3 & S4).
      split; [congruence|now rewrite Nv|auto|auto| |].
      + unfold act. rewrite E, F. destruct m; cbn [fst mover]; [|exact R].
        destruct (advance epoch fresh ls (fst v) p) as [d1 q1], (advance epoch fresh ls (fst w) p) as [d2 q2]. cbn [fst snd] in *. exact S4.
      + intros k q H1 H2. unfold act in *. rewrite E in H1. rewrite F. destruct m as [j|j]; cbn [mover] in *.
        * destruct (advance epoch fresh ls (fst v) p) as [d1 q1], (advance epoch fresh ls (fst w) p) as [d2 q2]. cbn [fst snd] in *. subst q2.
          rewrite nth_upd in *. destruct (Nat.eqb_spec k j) as [->|]; [rewrite E in H1; rewrite F; exact H1|now apply Q].
        * cbn [snd] in *. rewrite nth_upd in *. destruct (Nat.eqb_spec k j) as [->|]; [rewrite E in H1; rewrite F; exact H1|now apply Q].
    - split; [now rewrite Nv|now rewrite Nv| | | |].
      + intros b Hb. split; [now apply Dv|apply (D b Hb)].
      + split; [exact Pv|apply P].
      + intros i. rewrite <- R. unfold act. destruct (nth_error (snd v) (mover m)) as [p|] eqn:E; [|reflexivity].
        destruct m as [k|k]; [|reflexivity]. unfold moves_of in M. rewrite E in M. apply String.eqb_neq in M.
        pose proof (advance_apart a (fst v) p A (known_name v _ _ K E) M i) as X. destruct (advance epoch fresh ls (fst v) p). exact X.
      + intros k q H1 H2. unfold act in H1. unfold moves_of in M. destruct (nth_error (snd v) (mover m)) as [p|] eqn:E; [|now apply Q].
        apply String.eqb_neq in M. destruct m as [j|j]; cbn [mover] in *.
        * pose proof (advance_name (fst v) p) as Na. destruct (advance epoch fresh ls (fst v) p) as [d1 q1]. cbn [snd] in *. rewrite nth_upd in H1.
          destruct (Nat.eqb_spec k j) as [->|]; [rewrite E in H1; injection H1 as <-; congruence|now apply Q].
        * cbn [snd] in *. rewrite nth_upd in H1. destruct (Nat.eqb_spec k j) as [->|]; [rewrite E in H1; injection H1 as <-; cbn in H2; congruence|now apply Q].
  Qed.

  Lemma apart_run a sched : forall v w ps, In a model_names -> names (snd v) = names ps -> apart a v w ->
    apart a (run epoch fresh ls v sched) (run epoch fresh ls w (filter (moves_of a ps) sched)).
  Proof.
    induction sched as [|m sched IH]; intros v w ps A Np H; [exact H|]. cbn [run fold_left filter].
    pose proof (apart_step a v w m A H) as St. rewrite (moves_names a (snd v) ps m Np) in St.
    fold (run epoch fresh ls (act epoch fresh ls v m) sched).
    destruct (moves_of a ps m); cbn [run fold_left]; apply IH; auto; now rewrite act_names.
  Qed.

  (** Files that no model writes. *)
  Lemma run_untouched sched f : (forall b i, In b model_names -> f <> ckpt b i) -> forall w,
    Forall (fun b => In b model_names) (names (snd w)) -> disk_read (fst (run epoch fresh ls w sched)) f = disk_read (fst w) f.
  Proof.
    intros F. induction sched as [|m sched IH]; intros w K; [reflexivity|]. cbn [run fold_left]. fold (run epoch fresh ls (act epoch fresh ls w m) sched).
    rewrite IH by now rewrite act_names. unfold act. destruct (nth_error (snd w) (mover m)) as [p|] eqn:E; [|reflexivity]. destruct m as [k|k]; [|reflexivity].
    pose proof (known_name w _ _ K E) as B. unfold advance. destruct (pr_phase p) as [|g|i s|i s| |]; try reflexivity; [destruct (pr_left p); [reflexivity|]|];
      cbn [fst]; apply read_other; intros X; now apply (F (pr_name p) i B).
  Qed.

  (** ** One process of a model at a time *)
  (** What an active process of model [a] knows about the directory. *)
  Definition ahead (a : string) (d : disk W) (p : proc W O) : Prop :=
    match pr_phase p with
    | Loading (_, None) => forall j, disk_read d (ckpt a j) = None
    | Loading (k, Some f) => exists i, f = ("saved_models/" ++ ckpt a i)%string /\ k = Z.of_nat i /\ forall j, disk_read d (ckpt a j) <> None -> (j <= i)%nat
    | Running i _ => forall j, disk_read d (ckpt a j) <> None -> (j < i)%nat
    | Saving i _ => disk_read d (ckpt a i) = Some Torn /\ forall j, disk_read d (ckpt a j) <> None -> (j <= i)%nat
    | _ => True
    end.
  Definition orderly_world (a : string) (w : disk W * list (proc W O)) : Prop :=
    Forall (fun b => In b model_names) (names (snd w)) /\ own a (fst w) /\
    (forall k p, nth_error (snd w) k = Some p -> pr_name p = a -> ahead a (fst w) p).

  Lemma ahead_same a d e p : (forall i, disk_read d (ckpt a i) = disk_read e (ckpt a i)) -> ahead a d p -> ahead a e p.
  Proof.
    intros R. unfold ahead. destruct (pr_phase p) as [|[k [f|]]|i s|i s| |]; auto.
    - intros (i & E & K & M). exists i. repeat split; auto. intros j J. apply M. now rewrite R.
    - intros H j. now rewrite <- R.
    - intros H j J. apply H. now rewrite R.
    - intros [H1 H2]. split; [now rewrite <- R|]. intros j J. apply H2. now rewrite R.
  Qed.
  (** The step of a process of [a]: its own knowledge is kept, complete checkpoints are kept. *)
  Lemma advance_ahead a d p : In a model_names -> pr_name p = a -> own a d -> ahead a d p ->
    ahead a (fst (advance epoch fresh ls d p)) (snd (advance epoch fresh ls d p)) /\
    (forall i c, disk_read d (ckpt a i) = Some (Full c) -> disk_read (fst (advance epoch fresh ls d p)) (ckpt a i) = Some (Full c)).
  Proof.
    intros A N D H. unfold advance, ahead in *. rewrite N in *. destruct (pr_phase p) as [|[k [f|]]|i s|i s| |] eqn:E; cbn [fst snd pr_phase].
    - split; [|auto]. destruct (latest_is a d D) as [(i & -> & _ & M)|(-> & M)]; [exists i; auto|exact M].
    - split; [|auto]. destruct H as (i & -> & -> & M). unfold loaded.
      change ("saved_models/" ++ ckpt a i)%string with ((save_dir ++ "/") ++ ckpt a i)%string. rewrite strip_prefix_app.
      destruct (disk_read d (ckpt a i)) as [[c|]|]; try exact I. intros j J. apply M in J. lia.
    - split; [|auto]. cbn [loaded]. intros j J. now rewrite H in J.
    - destruct (pr_left p); cbn [fst snd pr_phase]; [auto|]. split.
      + split; [apply read_same|]. intros j J. destruct (Nat.eq_dec i j) as [->|M]; [lia|]. rewrite read_other in J by (intros X; exact (M (ckpt_inj a i j X))).
        apply H in J. lia.
      + intros j c J. rewrite read_other; [exact J|]. intros X. apply ckpt_inj in X. subst j. specialize (H i ltac:(congruence)). lia.
    - destruct H as [H1 H2]. split.
      + intros j J. destruct (Nat.eq_dec i j) as [->|M]; [lia|]. rewrite read_other in J by (intros X; exact (M (ckpt_inj a i j X))). apply H2 in J. lia.
      + intros j c J. rewrite read_other; [exact J|]. intros X. apply ckpt_inj in X. subst j. congruence.
    - rewrite E. auto.
    - rewrite E. auto.
  Qed.
  Lemma ahead_idle a d p : ~ active p -> ahead a d p.
  Proof. unfold active, ahead. destruct (pr_phase p) as [|[k [f|]]|i s|i s| |]; tauto. Qed.

  Lemma serial_step a w m : In a model_names -> orderly_world a w ->
    one_at_most a (snd w) -> one_at_most a (snd (act epoch fresh ls w m)) ->
    orderly_world a (act epoch fresh ls w m) /\
    (forall i c, disk_read (fst w) (ckpt a i) = Some (Full c) -> disk_read (fst (act epoch fresh ls w m)) (ckpt a i) = Some (Full c)).
  Proof.
    intros A (K & D & H) O1 O2. pose proof (act_names w m) as Nm. unfold orderly_world. rewrite Nm. unfold act in *.
    destruct (nth_error (snd w) (mover m)) as [p|] eqn:E; [|auto]. pose proof (known_name w _ _ K E) as B. destruct m as [k|k]; cbn [mover] in E.
    - destruct (string_dec (pr_name p) a) as [Np|Np].
      + pose proof (advance_ahead a (fst w) p A Np D (H _ _ E Np)) as [X Y]. pose proof (advance_own a (fst w) p A B D) as Z1.
        pose proof (advance_name (fst w) p) as Nq.
        assert (Act : active (snd (advance epoch fresh ls (fst w) p)) \/ fst (advance epoch fresh ls (fst w) p) = fst w).
        { unfold advance. destruct (pr_phase p); auto; [destruct (pr_left p); [now right|left; exact I]|left; exact I]. }
        destruct (advance epoch fresh ls (fst w) p) as [d q]. cbn [fst snd] in *. split; [|exact Y]. split; [exact K|]. split; [exact Z1|].
        intros j r J R. rewrite nth_upd in J. destruct (Nat.eqb_spec j k) as [->|Nj]; [rewrite E in J; injection J as <-; exact X|].
        destruct Act as [Act| ->]; [|now apply (H j)]. apply ahead_idle. intros Ar.
        apply Nj. apply (O2 j k r q); [rewrite nth_upd; destruct (Nat.eqb_spec j k); [congruence|exact J]| |exact R|congruence|exact Ar|exact Act].
        rewrite nth_upd, Nat.eqb_refl, E. reflexivity.
      + pose proof (advance_apart a (fst w) p A B Np) as X. pose proof (advance_own a (fst w) p A B D) as Z1. pose proof (advance_name (fst w) p) as Nq.
        destruct (advance epoch fresh ls (fst w) p) as [d q]. cbn [fst snd] in *. split; [|intros i c Hc; now rewrite X].
        split; [exact K|]. split; [exact Z1|]. intros j r J R. rewrite nth_upd in J.
        destruct (Nat.eqb_spec j k) as [->|Nj]; [rewrite E in J; injection J as <-; congruence|].
        apply (ahead_same a (fst w)); [intros i; now rewrite X|now apply (H j)].
    - cbn [fst snd] in *. split; [|auto]. split; [exact K|]. split; [exact D|]. intros j r J R. rewrite nth_upd in J.
      destruct (Nat.eqb_spec j k) as [->|Nj]; [rewrite E in J; injection J as <-; exact I|now apply (H j)].
  Qed.
  Lemma serial_run a sched : forall w, In a model_names -> orderly_world a w ->
    (forall s1 s2, sched = s1 ++ s2 -> one_at_most a (snd (run epoch fresh ls w s1))) ->
    orderly_world a (run epoch fresh ls w sched) /\
    (forall i c, disk_read (fst w) (ckpt a i) = Some (Full c) -> disk_read (fst (run epoch fresh ls w sched)) (ckpt a i) = Some (Full c)).
  Proof.
    induction sched as [|m sched IH]; intros w A Ow S1; [auto|]. cbn [run fold_left]. fold (run epoch fresh ls (act epoch fresh ls w m) sched).
    destruct (serial_step a w m A Ow (S1 [] (m :: sched) eq_refl) (S1 [m] sched eq_refl)) as [O2 F2].
    destruct (IH _ A O2) as [O3 F3]; [intros s1 s2 ->; exact (S1 (m :: s1) s2 eq_refl)|]. split; [exact O3|]. auto.
  Qed.

  (** ** A process on its own is a run of [train] *)
  Lemma alone_iterations name init m : forall i s d,
    run epoch fresh ls (d, [MkProc name init m (Running i s)]) (repeat (Go 0) (2 * m)) =
    (last (iterations (epoch name) name m i s d) d, [MkProc name init 0 (Running (i + m) (steps (epoch name) m i s))]).
  Proof.
    induction m as [|m IH]; intros i s d; [cbn; now rewrite Nat.add_0_r|].
    replace (2 * S m)%nat with (S (S (2 * m))) by lia. cbn [repeat run fold_left].
    match goal with |- fold_left _ _ ?x = _ => assert (E : x = (disk_write (disk_write d (ckpt name i) Torn) (ckpt name i) (Full (fst (epoch name (i mod 8) s))),
      [MkProc name init m (Running (S i) (epoch name (i mod 8) s))])) by reflexivity; rewrite E end.
    fold (run epoch fresh ls (disk_write (disk_write d (ckpt name i) Torn) (ckpt name i) (Full (fst (epoch name (i mod 8) s))),
      [MkProc name init m (Running (S i) (epoch name (i mod 8) s))]) (repeat (Go 0) (2 * m))).
    assert (W2 : forall (d : disk W) p c c', disk_write (disk_write d p c) p c' = disk_write d p c').
    { clear. induction d as [|[q x] d IH]; intros p c c'; cbn; [now rewrite String.eqb_refl|].
      destruct (String.eqb_spec p q) as [->|N]; cbn; [now rewrite String.eqb_refl|]. destruct (String.eqb_spec p q); [congruence|]. now rewrite IH. }
    rewrite W2, IH. cbn [iterations steps]. replace (S i + m)%nat with (i + S m)%nat by lia. f_equal.
    rewrite last_cons2. generalize (disk_write d (ckpt name i) (Full (fst (epoch name (i mod 8) s)))). intros d1.
    destruct (iterations (epoch name) name m (S i) (epoch name (i mod 8) s) d1) as [|y l]; [reflexivity|]. rewrite last_cons2.
    clear. revert y. induction l as [|z l IH]; intros y; [reflexivity|]. rewrite !last_cons2. apply IH.
  Qed.
  Lemma alone_train name init m d ds : train (epoch name) (fresh name) ls name m init d = Ok ds ->
    exists p, run epoch fresh ls (d, [launched name init m]) (repeat (Go 0) (2 + 2 * m + 1)) = (last ds d, [p]) /\ pr_phase p = Done.
  Proof.
    intros H. unfold train in H. destruct (startup ls name init d) as [[i w]|e] eqn:S1; [|discriminate H]. cbn [bind] in H. injection H as <-.
    assert (E : run epoch fresh ls (d, [launched name init m]) (repeat (Go 0) 2) = (d, [MkProc name init m (Running i (w, fresh name))])).
    { unfold startup in S1. cbn [repeat run fold_left act snd mover launched nth_error upd advance pr_phase pr_name pr_init pr_left fst].
      unfold loaded. destruct (find_latest name save_dir (ls (map fst d))) as [k [f|]]; [|injection S1 as <- <-; reflexivity].
      destruct (strip_prefix (save_dir ++ "/") f) as [g|]; [|discriminate S1]. destruct (disk_read d g) as [[c|]|]; try discriminate S1.
      injection S1 as <- <-. reflexivity. }
    unfold run in *. rewrite !repeat_app, !fold_left_app, E. fold (run epoch fresh ls (d, [MkProc name init m (Running i (w, fresh name))]) (repeat (Go 0) (2 * m))).
    rewrite alone_iterations. exists (MkProc name init 0 Done). split; [|reflexivity]. cbn [repeat fold_left act snd mover nth_error upd advance pr_phase pr_name pr_init pr_left fst].
    f_equal. destruct (iterations (epoch name) name m i (w, fresh name) d) as [|y l]; [reflexivity|]. now rewrite last_cons2.
  Qed.
  Lemma alone_fails name init m d e k : train (epoch name) (fresh name) ls name m init d = Err e ->
    run epoch fresh ls (d, [launched name init m]) (repeat (Go 0) (2 + k)) = (d, [MkProc name init m Dead]).
  Proof.
    intros H. unfold train in H. destruct (startup ls name init d) as [[i w]|e'] eqn:S1; [discriminate H|].
    assert (E : run epoch fresh ls (d, [launched name init m]) (repeat (Go 0) 2) = (d, [MkProc name init m Dead])).
    { unfold startup in S1. cbn [repeat run fold_left act snd mover launched nth_error upd advance pr_phase pr_name pr_init pr_left fst].
      unfold loaded. destruct (find_latest name save_dir (ls (map fst d))) as [q [f|]]; [|discriminate S1].
      destruct (strip_prefix (save_dir ++ "/") f) as [g|]; [|reflexivity]. destruct (disk_read d g) as [[c|]|]; try reflexivity. discriminate S1. }
    unfold run in *. rewrite repeat_app, fold_left_app, E. clear. induction k as [|k IH]; [reflexivity|]. exact IH.
  Qed.
End L.
