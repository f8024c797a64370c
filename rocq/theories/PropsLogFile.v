(** C120: the log of a training run.  Model in LogFile.v. *)
From Coq Require Import List Bool String Ascii PeanoNat Lia.
From Verif Require Import Base Train TrainLemmas ScrapeRun LogFile.
Import ListNotations.
Open Scope string_scope.

(** ** Specification *)
(** The lines process [k] logs, in order. *)
Definition lines_of (k : nat) (es : list logged) : string :=
  fold_right (fun e r => match e with Line j time message => if Nat.eqb j k then "[" ++ time ++ "] " ++ message ++ String (ascii_of_nat 10) r else r | _ => r end) EmptyString es.
(** No other process loads the module at a time with the same text. *)
Definition own_second (k : nat) (stamp : string) (es : list logged) : Prop :=
  forall j stamp', In (Load j stamp') es -> stamp' = stamp -> j = k.
Definition no_load (k : nat) (es : list logged) : Prop := forall stamp, ~ In (Load k stamp) es.

(** ** Proofs *)
Lemma name_inj a b : log_name a = log_name b -> a = b.
Proof.
  unfold log_name. intros H. apply sapp_inj in H. revert b H. induction a as [|c a IH]; intros b H.
  - destruct b as [|x [|y [|z [|v [|w b]]]]]; try reflexivity; discriminate H.
  - destruct b as [|x b]; [destruct a as [|y [|z [|v [|w a]]]]; discriminate H|]. cbn in H. injection H as -> H. f_equal. now apply IH.
Qed.
Lemma some_inj (a b : string) : Some a = Some b -> a = b.
Proof. congruence. Qed.
Lemma line_app a time message r : (a ++ line_text time message) ++ r = a ++ "[" ++ time ++ "] " ++ message ++ String (ascii_of_nat 10) r.
Proof. unfold line_text, newline_text. rewrite !sapp_assoc. reflexivity. Qed.

Lemma log_kept k stamp es : forall (s : log_state) text, own_second k stamp es -> no_load k es ->
  fst s k = Some (log_name stamp) -> (forall j, j <> k -> fst s j <> Some (log_name stamp)) -> snd s (log_name stamp) = Some text ->
  snd (fold_left log_step es s) (log_name stamp) = Some (text ++ lines_of k es).
Proof.
  induction es as [|e es IH]; intros s text Os Ol N Others F; [cbn; now rewrite sapp_nil|].
  assert (Os' : own_second k stamp es) by (intros j st I1; apply Os; now right).
  assert (Ol' : no_load k es) by (intros st I1; apply (Ol st); now right).
  cbn [fold_left lines_of fold_right]. fold (lines_of k es). destruct e as [j st|j time message].
  - assert (Nj : j <> k) by (intros ->; apply (Ol st); now left).
    assert (Ns : st <> stamp) by (intros ->; apply Nj, (Os j stamp (or_introl eq_refl) eq_refl)).
    apply IH; auto; cbn [log_step fst snd].
    + destruct (Nat.eqb_spec k j); [congruence|exact N].
    + intros i Ni. destruct (Nat.eqb_spec i j); [intros X; exact (Ns (name_inj _ _ (some_inj _ _ X)))|now apply Others].
    + unfold write. destruct (String.eqb_spec (log_name stamp) (log_name st)) as [X|]; [elim Ns; symmetry; exact (name_inj _ _ X)|exact F].
  - cbn [log_step]. destruct (Nat.eqb_spec j k) as [->|Nj].
    + rewrite N, F. rewrite <- line_app. apply IH; auto. cbn [snd]. unfold write. now rewrite String.eqb_refl.
    + destruct (fst s j) as [f|] eqn:Fj; [|now apply IH]. apply IH; auto. cbn [snd]. unfold write.
      destruct (String.eqb_spec (log_name stamp) f) as [<-|]; [now elim (Others j Nj)|exact F].
Qed.

(** C120.  A process that is alone in having loaded the module in its second (each process
    loads it once): after any history of any number of processes its log file is the header
    and exactly its own lines, in order. *)
Theorem C120_complete_partial : forall d before after k stamp,
  own_second k stamp (before ++ after) -> no_load k before -> no_load k after ->
  snd (log_run d (before ++ Load k stamp :: after)) ("training_log_" ++ stamp ++ ".txt") =
  Some ("Training log started" ++ String (ascii_of_nat 10) (lines_of k after)).
Proof.
  intros d before after k stamp Os L1 L2. unfold log_run. rewrite fold_left_app. cbn [fold_left].
  set (s := fold_left log_step before (fun _ : nat => None, d)).
  assert (Others : forall j, j <> k -> fst s j <> Some (log_name stamp)).
  { assert (G : forall es s0, (forall j st, In (Load j st) es -> st = stamp -> j = k) -> (forall j, j <> k -> fst s0 j <> Some (log_name stamp)) ->
      forall j, j <> k -> fst (fold_left log_step es s0) j <> Some (log_name stamp)).
    { induction es as [|e es IH]; intros s0 O1 H0 j Nj; [now apply H0|]. cbn [fold_left]. apply IH; [intros i st I1; apply O1; now right| |exact Nj].
      intros i Ni. destruct e as [i' st|i' t m]; cbn [log_step].
      - cbn [fst]. destruct (Nat.eqb_spec i i') as [->|]; [|now apply H0]. intros X. apply Ni. exact (O1 i' st (or_introl eq_refl) (name_inj _ _ (some_inj _ _ X))).
      - destruct (fst s0 i') as [f|]; now apply H0. }
    apply G; [intros j st I1; apply Os; apply in_or_app; now left|discriminate]. }
  change ("training_log_" ++ stamp ++ ".txt") with (log_name stamp).
  rewrite (log_kept k stamp after (log_step s (Load k stamp)) ("Training log started" ++ newline_text)).
  - reflexivity.
  - intros j st I1. apply Os. apply in_or_app. now right.
  - exact L2.
  - cbn. now rewrite Nat.eqb_refl.
  - intros j Nj. cbn. destruct (Nat.eqb_spec j k); [congruence|now apply Others].
  - cbn [log_step snd]. unfold write. now rewrite String.eqb_refl.
Qed.
Print Assumptions C120_complete_partial.

(** False for two processes in the same second, whatever they log: the lines the first one
    has written by then are lost, and afterwards both write into the same file. *)
Theorem C120_refuted : forall d stamp t1 m1 t2 m2 t3 m3,
  snd (log_run d [Load 0 stamp; Line 0 t1 m1; Load 1 stamp; Line 1 t2 m2; Line 0 t3 m3]) ("training_log_" ++ stamp ++ ".txt") =
  Some ("Training log started" ++ String (ascii_of_nat 10) ("[" ++ t2 ++ "] " ++ m2 ++ String (ascii_of_nat 10) ("[" ++ t3 ++ "] " ++ m3 ++ String (ascii_of_nat 10) ""))).
Proof.
  intros d stamp t1 m1 t2 m2 t3 m3. unfold log_run. cbn [fold_left log_step fst snd Nat.eqb]. change ("training_log_" ++ stamp ++ ".txt") with (log_name stamp).
  unfold write. rewrite !String.eqb_refl. unfold line_text, newline_text. rewrite !sapp_assoc. reflexivity.
Qed.
Print Assumptions C120_refuted.

Example C120_example :
  let es := [Load 7 "20240101_120000"; Line 7 "t0" "iter 0"; Load 3 "20240101_120001"; Line 3 "t1" "Training transformer for 1 iterations"; Line 7 "t1" "iter 1"; Line 3 "t2" "iter 0"] in
  own_second 3 "20240101_120001" es /\
  snd (log_run (fun _ => None) es) "training_log_20240101_120001.txt" =
  Some ("Training log started" ++ newline_text ++ "[t1] Training transformer for 1 iterations" ++ newline_text ++ "[t2] iter 0" ++ newline_text).
Proof.
  split; [|reflexivity]. intros j st H E. cbn in H. repeat (destruct H as [H|H]; [try discriminate H; injection H as <- <-; (reflexivity || discriminate E)|]). destruct H.
Qed.
