(** C117 and C118: training processes that share the directory of checkpoints.  Model in
    SideRuns.v, vocabulary in SpecSide.v, proofs in SideLemmas.v. *)
From Coq Require Import ZArith List Bool String Lia.
From Verif Require Import Base Train SpecTrain TrainLemmas SideRuns SpecSide SideLemmas.
Import ListNotations.

Lemma run_app {W O} epoch fresh ls (w : disk W * list (proc W O)) s1 s2 : run epoch fresh ls w (s1 ++ s2) = run epoch fresh ls (run epoch fresh ls w s1) s2.
Proof. apply fold_left_app. Qed.

(** A process left to itself does what a run of [train] does (Train.v, C56-C59): the
    directory it leaves is the last one of that run. *)
Theorem C117_alone : forall W O (epoch : string -> nat -> W * O -> W * O) fresh ls name init m d ds,
  train (epoch name) (fresh name) ls name m init d = Ok ds ->
  exists p, run epoch fresh ls (d, [launched name init m]) (repeat (Go 0) (2 + 2 * m + 1)) = (last ds d, [p]) /\ pr_phase p = Done.
Proof. intros W O epoch fresh ls name init m d ds H. now apply alone_train. Qed.
Print Assumptions C117_alone.
(** And where [train] raises (an incomplete checkpoint, C58), the process ends with the
    directory unchanged. *)
Theorem C117_alone_fails : forall W O (epoch : string -> nat -> W * O -> W * O) fresh ls name init m d e k,
  train (epoch name) (fresh name) ls name m init d = Err e ->
  exists p, run epoch fresh ls (d, [launched name init m]) (repeat (Go 0) (2 + k)) = (d, [p]) /\ pr_phase p = Dead.
Proof. intros W O epoch fresh ls name init m d e k H. exists (MkProc name init m Dead). split; [now apply (alone_fails epoch fresh ls) with (e := e)|reflexivity]. Qed.
Print Assumptions C117_alone_fails.

(** C117.  Any number of processes of any of the nine models, scheduled and killed in any
    way: with the moves of the other models left out of the schedule, every process of
    model [a] gets to the same point with the same parameters, and every checkpoint of [a]
    has the same content.  Files that are no checkpoints are never touched. *)
Theorem C117_apart : forall W O (epoch : string -> nat -> W * O -> W * O) fresh ls d runs schedule a,
  listing ls -> orderly d -> In a model_names -> Forall (fun r => In (fst (fst r)) model_names) runs ->
  let ps := map (fun r => launched (fst (fst r)) (snd (fst r)) (snd r)) runs in
  let together := run epoch fresh ls (d, ps) schedule in
  let without_others := run epoch fresh ls (d, ps) (filter (moves_of a ps) schedule) in
  (forall k p, nth_error (snd together) k = Some p -> pr_name p = a -> nth_error (snd without_others) k = Some p) /\
  (forall i, disk_read (fst together) (ckpt a i) = disk_read (fst without_others) (ckpt a i)) /\
  (forall f, (forall b i, In b model_names -> f <> ckpt b i) -> disk_read (fst together) f = disk_read d f).
Proof.
  intros W O epoch fresh ls d runs sched a LS D A R ps together wo.
  assert (K : Forall (fun b => In b model_names) (names ps)).
  { unfold names, ps. rewrite map_map. rewrite Forall_forall in *. intros b Hb. apply in_map_iff in Hb as (r & <- & Hr). now apply R. }
  assert (P : Forall wellp ps) by (unfold ps; rewrite Forall_forall; intros p Hp; apply in_map_iff in Hp as (r & <- & _); exact I).
  assert (S0 : apart a (d, ps) (d, ps)).
  { split; cbn [fst snd]; auto. intros b Hb. split; now apply orderly_own. }
  destruct (apart_run epoch fresh ls LS a sched (d, ps) (d, ps) ps A eq_refl S0) as [_ _ _ _ E1 E2].
  split; [exact E2|]. split; [exact E1|]. intros f F. now apply (run_untouched epoch fresh ls sched f F (d, ps)).
Qed.
Print Assumptions C117_apart.

(** C118.  One process of a model at a time: a complete checkpoint is never changed,
    whatever happens and whichever other models are trained meanwhile. *)
Theorem C118_kept_partial : forall W O (epoch : string -> nat -> W * O -> W * O) fresh ls d runs before after a,
  listing ls -> orderly d -> In a model_names -> Forall (fun r => In (fst (fst r)) model_names) runs ->
  let ps := map (fun r => launched (fst (fst r)) (snd (fst r)) (snd r)) runs in
  (forall s1 s2, before ++ after = s1 ++ s2 -> one_at_most a (snd (run epoch fresh ls (d, ps) s1))) ->
  forall i w, disk_read (fst (run epoch fresh ls (d, ps) before)) (ckpt a i) = Some (Full w) ->
  disk_read (fst (run epoch fresh ls (d, ps) (before ++ after))) (ckpt a i) = Some (Full w).
Proof.
  intros W O epoch fresh ls d runs before after a LS D A R ps S1 i w H.
  assert (K : Forall (fun b => In b model_names) (names ps)).
  { unfold names, ps. rewrite map_map. rewrite Forall_forall in *. intros b Hb. apply in_map_iff in Hb as (r & <- & Hr). now apply R. }
  assert (O0 : orderly_world a (d, ps)).
  { split; [exact K|]. split; [now apply orderly_own|]. cbn [fst snd]. intros k p E N. apply (ahead_idle epoch fresh).
    apply nth_error_In in E. apply in_map_iff in E as (r & <- & _). exact (fun x => x). }
  destruct (serial_run epoch fresh ls LS a before (d, ps) A O0) as [O1 _].
  { intros s1 s2 ->. apply (S1 s1 (s2 ++ after)). now rewrite app_assoc. }
  unfold run. rewrite fold_left_app. fold (run epoch fresh ls (d, ps) before). fold (run epoch fresh ls (run epoch fresh ls (d, ps) before) after).
  apply (serial_run epoch fresh ls LS a after); [exact A|exact O1| |exact H].
  intros s1 s2 E. specialize (S1 (before ++ s1) s2). rewrite E, app_assoc in S1. specialize (S1 eq_refl).
  unfold run in *. now rewrite fold_left_app in S1.
Qed.
Print Assumptions C118_kept_partial.

(** False for two processes of the same model at the same time, for every model and all
    training dynamics: if both begin before one has saved, the second replaces the complete
    checkpoint of the first by its own, and in between the checkpoint is incomplete: a
    process started at that moment ends with an error. *)
Theorem C118_refuted : forall W O (epoch : string -> nat -> W * O -> W * O) fresh ls name w1 w2,
  listing ls -> In name model_names -> fst (epoch name 0%nat (w1, fresh name)) <> fst (epoch name 0%nat (w2, fresh name)) ->
  exists schedule next last saved1 saved2,
    let ps := [launched name w1 1; launched name w2 1; launched name w1 1] in
    disk_read (fst (run epoch fresh ls ([], ps) schedule)) (ckpt name 0) = Some (Full saved1) /\
    disk_read (fst (run epoch fresh ls ([], ps) (schedule ++ next))) (ckpt name 0) = Some Torn /\
    option_map pr_phase (nth_error (snd (run epoch fresh ls ([], ps) (schedule ++ next))) 2) = Some Dead /\
    disk_read (fst (run epoch fresh ls ([], ps) (schedule ++ next ++ last))) (ckpt name 0) = Some (Full saved2) /\ saved1 <> saved2.
Proof.
  intros W O epoch fresh ls name w1 w2 LS A Ne.
  exists [Go 0; Go 1; Go 0; Go 1; Go 0; Go 0], [Go 1; Go 2; Go 2], [Go 1], (fst (epoch name 0%nat (w1, fresh name))), (fst (epoch name 0%nat (w2, fresh name))).
  intros ps.
  assert (E0 : find_latest name save_dir (ls []) = (0%Z, None)).
  { assert (ls [] = []) as -> by (apply Permutation.Permutation_nil, Permutation.Permutation_sym, LS). reflexivity. }
  set (e1 := epoch name 0%nat (w1, fresh name)) in *. set (e2 := epoch name 0%nat (w2, fresh name)) in *.
  assert (E1 : run epoch fresh ls ([], ps) [Go 0; Go 1; Go 0; Go 1; Go 0; Go 0] =
    ([(ckpt name 0, Full (fst e1))], [MkProc name w1 0 (Running 1 e1); MkProc name w2 1 (Running 0 (w2, fresh name)); launched name w1 1])).
  { cbn [run fold_left act ps snd mover nth_error launched advance pr_phase fst upd pr_name pr_init pr_left map]. rewrite E0.
    cbn [loaded pr_init pr_name]. cbn [act snd mover nth_error launched advance pr_phase fst upd pr_name pr_init pr_left disk_write]. rewrite String.eqb_refl. reflexivity. }
  assert (L1 : own name [(ckpt name 0, @Torn W)]).
  { intros f [<-|[]] _. now exists 0%nat. }
  assert (F1 : find_latest name save_dir (ls [ckpt name 0]) = (0%Z, Some ("saved_models/" ++ ckpt name 0)%string)).
  { destruct (latest_is epoch fresh ls LS name _ L1) as [(i & F & I1 & _)|(_ & N)].
    - cbn [map fst] in F. rewrite F. apply (read_in epoch fresh) in I1. destruct I1 as [I1|[]]. cbn [fst] in I1. apply ckpt_inj in I1. now subst i.
    - specialize (N 0%nat). cbn [disk_read] in N. now rewrite String.eqb_refl in N. }
  assert (E2 : run epoch fresh ls ([], ps) ([Go 0; Go 1; Go 0; Go 1; Go 0; Go 0] ++ [Go 1; Go 2; Go 2]) =
    ([(ckpt name 0, Torn)], [MkProc name w1 0 (Running 1 e1); MkProc name w2 0 (Saving 0 e2); MkProc name w1 1 Dead])).
  { unfold run in *. rewrite fold_left_app, E1.
    cbn [fold_left act snd mover nth_error launched advance pr_phase fst upd pr_name pr_init pr_left disk_write]. rewrite String.eqb_refl. cbn [map fst]. rewrite F1.
    unfold loaded. change ("saved_models/" ++ ckpt name 0)%string with ((save_dir ++ "/") ++ ckpt name 0)%string. rewrite strip_prefix_app.
    cbn [disk_read]. rewrite String.eqb_refl. reflexivity. }
  rewrite app_assoc, (run_app epoch fresh ls ([], ps) ([Go 0; Go 1; Go 0; Go 1; Go 0; Go 0] ++ [Go 1; Go 2; Go 2]) [Go 1]).
  rewrite E1, E2. cbn [run fold_left act snd mover nth_error advance pr_phase fst upd pr_name pr_init pr_left disk_write disk_read option_map].
  rewrite !String.eqb_refl. cbn [disk_read]. rewrite String.eqb_refl. repeat split. exact Ne.
Qed.
Print Assumptions C118_refuted.

(** Non-vacuity: two models trained side by side, the second killed while it saves; then
    the first one resumed.  Parameters are numbers and an epoch adds its number plus one. *)
Definition add_epoch (_ : string) (i : nat) (s : nat * nat) : nat * nat := (fst s + i + 1, snd s)%nat.
Definition side_runs : list (string * nat * nat) :=
  [("transformer", 10, 2); ("transformer_conv", 20, 1); ("transformer", 30, 1)]%string%nat.
Definition side_procs := map (fun r => @launched nat nat (fst (fst r)) (snd (fst r)) (snd r)) side_runs.
Definition side_schedule : list move :=
  [Go 0; Go 1; Go 1; Go 0; Go 0; Go 1; Go 0; Kill 1; Go 0; Go 0; Go 0; Go 2; Go 2; Go 2; Go 2].
Example C117_example :
  Forall (fun r => In (fst (fst r)) model_names) side_runs /\ orderly (W := nat) [] /\
  fst (run add_epoch (fun _ => 0%nat) (fun l => l) ([], side_procs) side_schedule) =
    [("model_transformer_checkpoint_iter_0.pt", Full 11%nat); ("model_transformer_conv_checkpoint_iter_0.pt", Torn);
     ("model_transformer_checkpoint_iter_1.pt", Full 13%nat); ("model_transformer_checkpoint_iter_2.pt", Full 16%nat)]%string /\
  filter (moves_of "transformer_conv" side_procs) side_schedule = [Go 1; Go 1; Go 1; Kill 1].
Proof.
  split; [repeat apply Forall_cons; try apply Forall_nil; cbn; auto|]. split; [intros f b mid []|]. split; vm_compute; reflexivity.
Qed.
Example C118_example : forall s1 s2, side_schedule = s1 ++ s2 ->
  one_at_most "transformer" (snd (run add_epoch (fun _ => 0%nat) (fun l => l) ([], side_procs) s1)).
Proof.
  assert (Q : forall n, (n <= 15)%nat ->
    one_at_most "transformer" (snd (run add_epoch (fun _ => 0%nat) (fun l => l) ([], side_procs) (firstn n side_schedule)))).
  { intros n Hn. do 16 (destruct n as [|n]; [intros [|[|[|j]]] [|[|[|k]]] p q P1 P2; vm_compute in P1, P2; try destruct j; try destruct k;
      try discriminate P1; try discriminate P2; try injection P1 as <-; try injection P2 as <-; intros N1 N2 A1 A2; try reflexivity; try discriminate N1; try discriminate N2;
      try destruct A1; try destruct A2|]). lia. }
  intros s1 s2 E. assert (L : s1 = firstn (List.length s1) side_schedule) by (rewrite E, firstn_app, Nat.sub_diag, firstn_all; cbn; now rewrite app_nil_r).
  rewrite L. apply Q. apply (f_equal (@List.length move)) in E. rewrite app_length in E. change (List.length side_schedule) with 15%nat in E. lia.
Qed.
Example C117_fails_example : train (W := nat) (O := nat) (fun _ s => s) 0%nat (fun l => l) "transformer" 2 0%nat [(ckpt "transformer" 3, Torn)] = Err RuntimeError.
Proof. vm_compute. reflexivity. Qed.
