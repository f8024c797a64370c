(** Runs over directories of sound files come to their end: lemmas for C100. *)
From Coq Require Import ZArith List Bool String Lia PeanoNat Permutation.
From Verif Require Import Base Process DataLoader SpecData DataLemmas Tensor TrainLoop SpecTrainLoop TrainLoopLemmas VecLemmas.
Import ListNotations.
Open Scope Z_scope.

Section Sound.
  Context {G : Type} (proc : string -> res G) (P : G -> Prop).

  (** No file aborts the loader, every accepted file satisfies [P] and the last file is
      accepted. *)
  Definition sound_dir (files : list string) : Prop :=
    no_abort proc files /\ (forall f g, In f files -> proc f = Ok g -> P g) /\ (files = [] \/ exists fs f g, files = fs ++ [f] /\ proc f = Ok g).

  Lemma sound_skip n files : sound_dir files -> sound_dir (skipn n files).
  Proof.
    intros (A & B & C). assert (I : forall f, In f (skipn n files) -> In f files).
    { intros f Hf. rewrite <- (firstn_skipn n files). apply in_or_app. now right. }
    split; [intros f Hf; apply A; auto|]. split; [intros f g Hf; apply B; auto|].
    destruct C as [->|(fs & f & g & -> & E)]; [left; now destruct n|]. destruct (Nat.le_gt_cases n (List.length fs)) as [L|L].
    - right. exists (skipn n fs), f, g. split; [|exact E]. rewrite skipn_app. replace (n - List.length fs)%nat with 0%nat by lia. reflexivity.
    - left. apply skipn_all2. rewrite app_length. cbn. lia.
  Qed.
  Lemma games_sound files : (forall f g, In f files -> proc f = Ok g -> P g) -> Forall P (games proc files).
  Proof.
    intros H. apply Forall_forall. intros g Hg. unfold games in Hg. apply in_flat_map in Hg as (f & If & Hg).
    destruct (proc f) as [g'|] eqn:E; [|destruct Hg]. destruct Hg as [<-|[]]. eapply H; eauto.
  Qed.

  (** A batch from a position before the end has a game. *)
  Lemma next_sound d : sound_dir (skipn (dl_cur d) (dl_files d)) -> 1 <= dl_bs d -> (dl_cur d < List.length (dl_files d))%nat ->
    exists b d', dl_next proc d = (Ok b, d') /\ b <> [] /\ Forall P b /\ dl_files d' = dl_files d /\ dl_bs d' = dl_bs d /\
      (dl_cur d < dl_cur d' <= List.length (dl_files d))%nat /\ sound_dir (skipn (dl_cur d') (dl_files d')).
  Proof.
    intros S B L. unfold dl_next. rewrite (proj2 (Nat.leb_gt _ _) L).
    destruct S as (A & Q & C). set (rest := skipn (dl_cur d) (dl_files d)) in *.
    assert (Lr : List.length rest = (List.length (dl_files d) - dl_cur d)%nat) by (unfold rest; apply skipn_length).
    destruct (fill_ok proc (dl_bs d) rest [] A ltac:(cbn; lia)) as (b & n & E & N & Eb & _ & Full).
    destruct (fill_gen proc (dl_bs d) rest []) as (o & n' & E' & _ & N1 & _). rewrite E in E'. injection E' as <- <-.
    assert (N1' : (1 <= n)%nat) by (apply N1; [intros X; rewrite X in Lr; cbn in Lr; lia|cbn; lia]).
    rewrite E. eexists b, _. split; [reflexivity|]. cbn [dl_files dl_bs dl_cur]. cbn [app] in Eb.
    split; [|split; [|split; [reflexivity|split; [reflexivity|split; [lia|]]]]].
    - destruct (Nat.lt_ge_cases n (List.length rest)) as [M|M].
      + specialize (Full M). intros ->. cbn in Full. lia.
      + destruct C as [C|(fs & f & g & Ef & Eg)]; [rewrite C in Lr; cbn in Lr; lia|].
        rewrite Eb, firstn_all2 by exact M. rewrite Ef, games_app. unfold games at 2. cbn [flat_map]. rewrite Eg. cbn. intros X. apply app_eq_nil in X as [_ X]. discriminate X.
    - rewrite Eb. apply games_sound. intros f g Hf. apply Q. rewrite <- (firstn_skipn n rest). apply in_or_app. now left.
    - rewrite <- skipn_skipn_. fold rest. apply sound_skip. split; [exact A|]. split; [exact Q|exact C].
  Qed.

  Lemma iterate_sound k : forall d, sound_dir (skipn (dl_cur d) (dl_files d)) -> 1 <= dl_bs d -> (List.length (dl_files d) - dl_cur d < k)%nat ->
    exists batches d', iterate proc k d = Some (batches, Ok tt, d') /\ Forall (fun b => b <> [] /\ Forall P b) batches.
  Proof.
    induction k as [|k IH]; intros d S B L; [lia|]. cbn [iterate]. destruct (Nat.lt_ge_cases (dl_cur d) (List.length (dl_files d))) as [Q|Q].
    - destruct (next_sound d S B Q) as (b & d' & E & Nb & Fb & F1 & F2 & F3 & S'). rewrite E.
      destruct (IH d' S') as (bs & d'' & E' & F'); [lia|rewrite F1; lia|]. rewrite E'. eexists _, _. split; [reflexivity|]. constructor; auto.
    - rewrite next_end by exact Q. eexists _, _. split; [reflexivity|]. constructor.
  Qed.

  Section Val.
    Context {X : Type} (losses : list G -> res (list X)) (LOSS : forall b, b <> [] -> Forall P b -> exists x n, losses b = Ok (x :: n)).
    Lemma val_sound bs f : forall k d, sound_dir (skipn (dl_cur d) (dl_files d)) -> 1 <= dl_bs d -> (List.length (dl_files d) - dl_cur d < f)%nat ->
      exists l n d', val_loop proc losses f bs k d = Some (l, Ok n, d') /\ ((dl_cur d < List.length (dl_files d))%nat -> n <> []).
    Proof.
      induction f as [|f IH]; intros k d S B L; [lia|]. cbn [val_loop]. destruct (Nat.lt_ge_cases (dl_cur d) (List.length (dl_files d))) as [Q|Q].
      - destruct (next_sound d S B Q) as (b & d' & E & Nb & Fb & F1 & F2 & F3 & S'). rewrite E. destruct (LOSS b Nb Fb) as (x & n & ->).
        destruct (20 <=? Z.of_nat k * bs); [eexists _, _, _; split; [reflexivity|discriminate]|].
        destruct (IH (Datatypes.S k) d' S') as (l & m & d'' & E' & _); [lia|rewrite F1; lia|]. rewrite E'. eexists _, _, _. split; [reflexivity|discriminate].
      - rewrite next_end by exact Q. eexists _, _, _. split; [reflexivity|lia].
    Qed.
    Lemma estimate_sound bs f files d : dl_files d = files -> dl_cur d = 0%nat -> dl_bs d = bs -> 1 <= bs -> files <> [] -> sound_dir files -> (List.length files < f)%nat ->
      exists l n d', estimate_loss proc losses f bs d = Some (l, Ok n, d') /\ dl_files d' = files /\ dl_cur d' = 0%nat /\ dl_bs d' = bs.
    Proof.
      intros F C B Hb Ne S L. assert (Lf : (0 < List.length files)%nat) by (destruct files; [congruence|cbn; lia]).
      destruct (val_sound bs f 0 d) as (l & n & d' & E & N); [rewrite F, C; exact S|lia|rewrite F; lia|].
      rewrite F, C in N. specialize (N Lf). destruct (val_static proc losses f bs 0 d _ _ _ E) as [A1 A2].
      unfold estimate_loss. rewrite E. destruct n as [|x n]; [congruence|]. eexists _, _, _. split; [reflexivity|]. unfold dl_reset. cbn. repeat split; congruence.
    Qed.
  End Val.
End Sound.

Section Run.
  Context (a : agent) (proc : string -> res game) (rnd : Z -> nat -> list nat) (P : game -> Prop).
  Context (RND : random_orders rnd).
  (** A batch of such games has tensors, with a discard sample. *)
  Context (PREP : forall b, b <> [] -> Forall P b -> exists t, prepare_batches a b = Ok t /\ t_discard t <> []).

  Lemma losses_sound b : b <> [] -> Forall P b -> exists x n, val_losses a b = Ok (x :: n).
  Proof.
    intros N F. destruct (PREP b N F) as (t & E & D). rewrite (val_losses_ok a b t E).
    destruct (t_discard t) as [|r l] eqn:Ed; [congruence|]. destruct (t_during t); cbn [whole app]; eexists _, _; reflexivity.
  Qed.

  Lemma heads_sound s t : exists s1, foldM (head_step rnd) s (heads t) = Ok s1.
  Proof.
    unfold heads. cbn [foldM].
    assert (Q : forall s h rows, exists s', head_step rnd s (h, columns_of rows) = Ok s').
    { intros s0 h rows. unfold head_step. change sample_size with row_limit.
      destruct (head_input_ok row_limit rows (rnd (t_step s0)) (RND (t_step s0))) as [[_ X]|(_ & sel & _ & X)]; rewrite X; eexists; reflexivity. }
    destruct (Q s During (t_during t)) as (s1 & ->). cbn [bind]. destruct (Q s1 Discard (t_discard t)) as (s2 & ->). cbn [bind].
    destruct (Q s2 Post (t_post t)) as (s3 & ->). eexists. reflexivity.
  Qed.

  Context (bs : Z) (BS : 0 < bs) (fuel : nat) (val : list string) (VNE : val <> []) (VS : sound_dir proc P val) (VF : (List.length val < fuel)%nat).

  Lemma batch_sound iter s k b : ready s -> rested bs val (t_val s) -> b <> [] -> Forall P b ->
    exists s', batch_step a proc rnd fuel bs iter s (k, b) = Ok s' /\ ready s' /\ rested bs val (t_val s').
  Proof.
    intros E R N F. destruct (PREP b N F) as (t & Et & D). destruct (heads_sound s t) as (s1 & H).
    destruct (heads_ok rnd RND _ _ _ H E) as (d & e & f & _ & _ & _ & _ & _ & S2 & Hv & Hl).
    unfold batch_step. rewrite Et. cbn [bind]. rewrite H. cbn [bind]. destruct (validates bs k); [|exists s1; rewrite Hv; auto]. cbn [set_mode t_val t_loss].
    rewrite <- Hv in R. destruct R as (R1 & R2 & R3).
    destruct (estimate_sound proc P (val_losses a) losses_sound bs fuel val (t_val s1)) as (l & n & d' & X & Y1 & Y2 & Y3); auto; [lia|].
    rewrite X. destruct (t_loss s1) as [x|]; [|exfalso; apply D, Hl; reflexivity].
    eexists. split; [reflexivity|]. split; [split; [exact (proj1 S2)|reflexivity]|]. cbn [set_mode t_val]. repeat split; assumption.
  Qed.

  Lemma batches_sound iter : forall batches k s, ready s -> rested bs val (t_val s) -> Forall (fun b => b <> [] /\ Forall P b) batches ->
    exists s', foldM (batch_step a proc rnd fuel bs iter) s (combine (seq k (List.length batches)) batches) = Ok s' /\ ready s' /\ rested bs val (t_val s').
  Proof.
    induction batches as [|b l IH]; intros k s E R F; [exists s; auto|]. inversion F as [|? ? [Nb Fb] F']; subst. cbn [List.length seq combine foldM].
    destruct (batch_sound iter s k b E R Nb Fb) as (s1 & -> & E1 & R1). cbn [bind]. exact (IH (S k) s1 E1 R1 F').
  Qed.

  Lemma run_sound train : train <> [] -> Forall (fun fs => sound_dir proc P fs /\ (List.length fs < fuel)%nat) train -> forall m iter ds s,
    Forall2 (rested bs) train ds -> ready s -> rested bs val (t_val s) ->
    exists s', run_iterations a proc rnd fuel bs m iter ds s = Ok s'.
  Proof.
    intros Ne St. induction m as [|m IH]; intros iter ds s R E V; [eexists; reflexivity|].
    cbn [run_iterations]. pose proof (Forall2_len _ _ _ R) as L. rewrite <- L. set (i := (iter mod List.length train)%nat).
    assert (Hi : (i < List.length train)%nat) by (apply Nat.mod_upper_bound; destruct train; [congruence|discriminate]).
    destruct (nth_error ds i) as [d|] eqn:Ed; [|apply nth_error_None in Ed; lia].
    destruct (nth_error train i) as [files|] eqn:Ef; [|apply nth_error_None in Ef; lia].
    pose proof (Forall2_at _ _ _ i _ _ R Ef Ed) as (R1 & R2 & R3).
    assert (Sf : sound_dir proc P files /\ (List.length files < fuel)%nat) by (rewrite Forall_forall in St; apply St; eapply nth_error_In; exact Ef). destruct Sf as [Sf Lf].
    destruct (iterate_sound proc P fuel d) as (batches & d' & It & Fb); [rewrite R1, R2; exact Sf|lia|rewrite R1; lia|].
    unfold iteration. rewrite It. destruct (batches_sound iter batches 0 s E V Fb) as (s1 & H & E1 & V1). unfold enumerate. rewrite H. cbn [bind].
    apply IH; [|exact E1|exact V1].
    pose proof (iterate_static proc fuel d _ _ _ It) as [D1 D2].
    assert (Q : rested bs files (dl_reset d')) by (unfold rested, dl_reset; cbn; split; [congruence|]; split; [reflexivity|congruence]).
    exact (Forall2_put _ _ _ i _ _ R Ef Q).
  Qed.
End Run.
