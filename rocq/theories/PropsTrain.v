(** Properties C56-C60 (checkpoints, resuming, learning rate) and C67 (downloads). *)
From Coq Require Import ZArith List Bool String Ascii Permutation Lia Arith.
From Verif Require Import Base Train SpecTrain TrainLemmas TrainLatest.
Import ListNotations.
Open Scope Z_scope.

(** ** C56: the latest checkpoint wins *)
Theorem C56_latest_checkpoint_partial : forall name files, tidy name files ->
  (exists z f, find_latest name "saved_models" files = (z, Some ("saved_models/" ++ f)%string) /\
     In f files /\ checkpoint_of name f z /\
     forall f' z', In f' files -> checkpoint_of name f' z' -> z' <= z) \/
  (find_latest name "saved_models" files = (0, None) /\ forall f z, In f files -> ~ checkpoint_of name f z).
Proof. exact find_latest_ok. Qed.
Print Assumptions C56_latest_checkpoint_partial.

(** A file written by training under one of the nine model names is never taken for a
    checkpoint of another one. *)
Theorem C56_other_models_ignored : forall a b i, In a model_names -> In b model_names -> a <> b ->
  forall mid, ckpt b i <> ("model_" ++ a ++ "_checkpoint_iter_" ++ mid ++ ".pt")%string.
Proof.
  intros a b i A B N mid E. pose proof (other_models a b i A B N) as H.
  rewrite (proj2 (glob_spec a (ckpt b i)) (ex_intro _ mid E)) in H. discriminate H.
Qed.
Print Assumptions C56_other_models_ignored.

Example C56_example : tidy "transformer" ["model_transformer_checkpoint_iter_9.pt"; "model_transformer_conv_checkpoint_iter_70.pt";
    "model_transformer_checkpoint_iter_10.pt"]%string /\
  find_latest "transformer" "saved_models" ["model_transformer_checkpoint_iter_9.pt"; "model_transformer_conv_checkpoint_iter_70.pt";
    "model_transformer_checkpoint_iter_10.pt"]%string = (10, Some "saved_models/model_transformer_checkpoint_iter_10.pt"%string).
Proof.
  split; [|reflexivity]. intros mid H.
  assert (C : forall z, checkpoint_of "transformer" ("model_transformer_checkpoint_iter_" ++ mid ++ ".pt") z -> exists z, numeral mid z).
  { intros z H'. exists z. now apply (checkpoint_mid "transformer"). }
  destruct H as [H|[H|[H|[]]]]; [|discriminate H|]; cbn [String.append] in H; apply (f_equal (fun x => x)) in H.
  - apply (C 9). exists "9"%string. split; [now split|]. exact (eq_sym H).
  - apply (C 10). exists "10"%string. split; [now split|]. exact (eq_sym H).
Qed.

(** Without [tidy] the claim is false: the regular expression is not anchored at the
    end, so a leftover such as "…_iter_9.pt.tmp.pt" counts as checkpoint 9. *)
Theorem C56_refuted : exists files z p,
  find_latest "transformer" "saved_models" files = (z, Some p) /\
  (exists f, In f files /\ checkpoint_of "transformer" f 3) /\
  z = 9 /\ forall f, In f files -> ~ checkpoint_of "transformer" f z.
Proof.
  exists ["model_transformer_checkpoint_iter_3.pt"; "model_transformer_checkpoint_iter_9.pt.tmp.pt"]%string.
  exists 9, "saved_models/model_transformer_checkpoint_iter_9.pt.tmp.pt"%string.
  split; [reflexivity|]. split; [|split; [reflexivity|]].
  - exists "model_transformer_checkpoint_iter_3.pt"%string. split; [now left|]. exists "3"%string. now split.
  - intros f [<-|[<-|[]]] C.
    + apply (checkpoint_mid "transformer" "3" 9) in C. destruct C as (_ & C). discriminate C.
    + apply (checkpoint_mid "transformer" "9.pt.tmp" 9) in C. destruct C as (_ & C). discriminate C.
Qed.
Print Assumptions C56_refuted.

(** Exactly, for every directory listing: among the files that begin and end like a
    checkpoint of the model, each counts with the first number found in its path; the first
    file with the largest number is returned. *)
Theorem C56_exact_partial : forall name files,
  (exists z before f after, files = before ++ f :: after /\
     find_latest name "saved_models" files = (z, Some ("saved_models/" ++ f)%string) /\ counts_as name f z /\
     (forall f' z', In f' before -> counts_as name f' z' -> z' < z) /\
     (forall f' z', In f' after -> counts_as name f' z' -> z' <= z)) \/
  (find_latest name "saved_models" files = (0, None) /\ forall f z, In f files -> ~ counts_as name f z).
Proof. exact find_latest_exact. Qed.
Print Assumptions C56_exact_partial.

Example C56_exact_example :
  counts_as "transformer" "model_transformer_checkpoint_iter_9.pt.tmp.pt" 9 /\
  find_latest "transformer" "saved_models" ["model_transformer_checkpoint_iter_9.pt.tmp.pt"; "model_transformer_checkpoint_iter_best.pt";
    "model_transformer_checkpoint_iter_009.pt"]%string = (9, Some "saved_models/model_transformer_checkpoint_iter_9.pt.tmp.pt"%string).
Proof.
  split; [|reflexivity]. split; [now exists "9.pt.tmp"%string|]. apply search_some. reflexivity.
Qed.

(** ** C57: resuming neither repeats nor skips iterations *)
(** [others] are the files present at the beginning; none of them looks like a
    checkpoint of this model. *)
Definition no_lookalike {W} (name : string) (others : disk W) : Prop :=
  forall f mid, In f (map fst others) -> f <> ("model_" ++ name ++ "_checkpoint_iter_" ++ mid ++ ".pt")%string.

Lemma no_lookalike_foreign {W} name (others : disk W) : no_lookalike name others -> foreign name others.
Proof.
  intros H f F. destruct (glob_match name f) eqn:G; [|reflexivity]. apply glob_spec in G as (mid & E). now elim (H f mid F).
Qed.

Theorem C57_gap_free : forall W O (epoch : nat -> W * O -> W * O) fresh ls name others d,
  listing ls -> no_lookalike name others -> history epoch fresh ls name others d ->
  exists n, map fst d = map fst others ++ map (ckpt name) (seq 0 n).
Proof.
  intros W O epoch fresh ls name others d LS F H. apply no_lookalike_foreign in F.
  destruct (history_shape epoch fresh ls name LS others d F H) as (ws & ->).
  exists (List.length ws). now rewrite map_app, saved_names.
Qed.
Print Assumptions C57_gap_free.

(** Nothing that is in the directory when a run starts is changed by it, at any moment
    of the run. *)
Theorem C57_no_overwrite : forall W O (epoch : nat -> W * O -> W * O) fresh ls name others d m init ds d',
  listing ls -> no_lookalike name others -> history epoch fresh ls name others d ->
  train epoch fresh ls name m init d = Ok ds -> In d' ds -> exists more, d' = d ++ more.
Proof.
  intros W O epoch fresh ls name others d m init ds d' LS F H T I. apply no_lookalike_foreign in F.
  destruct (history_shape epoch fresh ls name LS others d F H) as (ws & ->).
  exact (train_extends epoch fresh ls name LS others ws m init ds d' F T I).
Qed.
Print Assumptions C57_no_overwrite.

(** And every run does start and adds the requested number of checkpoints. *)
Theorem C57_progress : forall W O (epoch : nat -> W * O -> W * O) fresh ls name others d n,
  listing ls -> no_lookalike name others -> history epoch fresh ls name others d ->
  map fst d = map fst others ++ map (ckpt name) (seq 0 n) ->
  forall m init, exists ds, train epoch fresh ls name m init d = Ok ds /\
    map fst (last ds d) = map fst others ++ map (ckpt name) (seq 0 (n + m)).
Proof.
  intros W O epoch fresh ls name others d n LS F H E m init. apply no_lookalike_foreign in F.
  destruct (history_shape epoch fresh ls name LS others d F H) as (ws & ->).
  assert (L : List.length ws = n).
  { rewrite map_app, saved_names in E. apply app_inv_head in E. apply (f_equal (@List.length _)) in E. now rewrite !map_length, !seq_length in E. }
  assert (S : exists w, startup ls name init (others ++ saved name ws) = Ok (List.length ws, w)).
  { destruct ws as [|w ws _] using rev_ind.
    - exists init. cbn [saved List.length seq combine map]. rewrite app_nil_r. now apply (startup_none).
    - exists w. now apply (startup_last (O:=O)). }
  destruct S as (w & S). unfold train. rewrite S. cbn [bind]. eexists. split; [reflexivity|].
  destruct (iterations_last epoch name others m F ws (w, fresh) (others ++ saved name ws)) as (new & E' & L' & _).
  refine (eq_trans (f_equal (map fst) E') _). rewrite map_app, saved_names, app_length, L, L'. reflexivity.
Qed.
Print Assumptions C57_progress.

(** Two runs, the first killed after its second checkpoint. *)
Example C57_example :
  let epoch := fun (i : nat) (s : Z * Z) => (fst s + 1, snd s + 1) in
  exists d1 d2 ds1 ds2, train epoch 0 (fun l => l) "transformer" 5 0 [] = Ok ds1 /\ In d1 ds1 /\ intact d1 /\
    train epoch 0 (fun l => l) "transformer" 1 0 d1 = Ok ds2 /\ In d2 ds2 /\ intact d2 /\
    d2 = [(ckpt "transformer" 0, Full 1); (ckpt "transformer" 1, Full 2); (ckpt "transformer" 2, Full 3)] /\
    no_lookalike "transformer" ([] : disk Z) /\ listing (fun l => l).
Proof.
  intros epoch.
  assert (T1 : exists ds, train epoch 0 (fun l => l) "transformer" 5 0 [] = Ok ds /\
     nth_error ds 4 = Some [(ckpt "transformer" 0, Full 1); (ckpt "transformer" 1, Full 2)]).
  { eexists. split; vm_compute; reflexivity. }
  assert (T2 : exists ds, train epoch 0 (fun l => l) "transformer" 1 0 [(ckpt "transformer" 0, Full 1); (ckpt "transformer" 1, Full 2)] = Ok ds /\
     nth_error ds 2 = Some [(ckpt "transformer" 0, Full 1); (ckpt "transformer" 1, Full 2); (ckpt "transformer" 2, Full 3)]).
  { eexists. split; vm_compute; reflexivity. }
  destruct T1 as (ds1 & A & B), T2 as (ds2 & C & D). do 4 eexists.
  split; [exact A|]. split; [exact (nth_error_In _ _ B)|]. split; [intros f [H|[H|[]]]; discriminate H|].
  split; [exact C|]. split; [exact (nth_error_In _ _ D)|]. split; [intros f [H|[H|[H|[]]]]; discriminate H|].
  split; [reflexivity|]. split; [intros f mid []|intros l; apply Permutation_refl].
Qed.

(** ** C58: a crash while saving *)
(** True when no file is half written: *)
Theorem C58_survivable_partial : forall W O (epoch : nat -> W * O -> W * O) fresh ls name others d,
  listing ls -> no_lookalike name others -> history epoch fresh ls name others d ->
  forall m init, exists ds, train epoch fresh ls name m init d = Ok ds.
Proof.
  intros W O epoch fresh ls name others d LS F H m init.
  destruct (C57_gap_free _ _ _ _ _ _ _ _ LS F H) as (n & E).
  destruct (C57_progress _ _ _ _ _ _ _ _ n LS F H E m init) as (ds & T & _). eauto.
Qed.
Print Assumptions C58_survivable_partial.

(** False in general: after every run that starts, killing the process while the
    first checkpoint is being written leaves a directory on which no later run can
    start, for any training dynamics. *)
Theorem C58_refuted : forall W O (epoch : nat -> W * O -> W * O) fresh ls name others d,
  listing ls -> no_lookalike name others -> history epoch fresh ls name others d ->
  forall m init, exists ds d', train epoch fresh ls name (S m) init d = Ok ds /\ In d' ds /\
    forall m' init', train epoch fresh ls name m' init' d' = Err RuntimeError.
Proof.
  intros W O epoch fresh ls name others d LS F H m init. apply no_lookalike_foreign in F.
  destruct (history_shape epoch fresh ls name LS others d F H) as (ws & ->).
  assert (S : exists w, startup ls name init (others ++ saved name ws) = Ok (List.length ws, w)).
  { destruct ws as [|w ws _] using rev_ind.
    - exists init. cbn [saved List.length seq combine map]. rewrite app_nil_r. now apply (startup_none).
    - exists w. now apply (startup_last (O:=O)). }
  destruct S as (w & S). unfold train at 1. rewrite S. cbn [bind iterations]. do 2 eexists. split; [reflexivity|]. split; [right; left; reflexivity|].
  intros m' init'. unfold train. rewrite write_next by exact F. now rewrite (startup_torn (O:=O)) by assumption.
Qed.
Print Assumptions C58_refuted.

(** ** C59: resumed training *)
(** When the next parameters do not depend on the optimizer and scheduler state,
    stopping and resuming makes no difference to the saved parameters. *)
Lemma steps_app {W O} (epoch : nat -> W * O -> W * O) n : forall m i s,
  steps epoch (n + m) i s = steps epoch m (i + n) (steps epoch n i s).
Proof.
  induction n as [|n IH]; intros m i s; cbn [steps Nat.add].
  - now rewrite Nat.add_0_r.
  - rewrite IH. f_equal. lia.
Qed.

Lemma steps_stateless {W O} (epoch : nat -> W * O -> W * O) :
  (forall i w o o', fst (epoch i (w, o)) = fst (epoch i (w, o'))) ->
  forall m i s s', fst s = fst s' -> fst (steps epoch m i s) = fst (steps epoch m i s').
Proof.
  intros H. induction m as [|m IH]; intros i s s' E; cbn [steps]; [exact E|]. apply IH.
  destruct s as [w o], s' as [w' o']. cbn in E. subst w'. apply H.
Qed.

(** The last checkpoint written by a run of [n] iterations, resumed for [m], on an
    empty directory. *)
Lemma run_last {W O} (epoch : nat -> W * O -> W * O) fresh ls name ws m init : listing ls -> m <> 0%nat ->
  exists ds, train epoch fresh ls name m init (saved name ws) = Ok ds /\
  exists new, last ds [] = saved name (ws ++ new) /\ List.length new = m /\
    exists pre, new = pre ++ [fst (steps epoch m (List.length ws) (last ws init, fresh))].
Proof.
  intros LS M. assert (F : @foreign W name []) by (intros f []).
  assert (S : startup ls name init (saved name ws) = Ok (List.length ws, last ws init)).
  { destruct ws as [|w ws _] using rev_ind.
    - exact (startup_none ls name LS [] init F).
    - rewrite last_last. exact (startup_last epoch ls name LS [] ws w init F). }
  unfold train. rewrite S. cbn [bind]. eexists. split; [reflexivity|].
  destruct (iterations_last epoch name [] m F ws (last ws init, fresh) []) as (new & E & L & P). exists new.
  split; [exact E|]. split; [exact L|exact (P M)].
Qed.

Theorem C59_stateless_partial : forall W O (epoch : nat -> W * O -> W * O) fresh ls name n m init init',
  listing ls -> (forall i w o o', fst (epoch i (w, o)) = fst (epoch i (w, o'))) -> n <> 0%nat -> m <> 0%nat ->
  exists ds1 ds2 ds w, train epoch fresh ls name n init [] = Ok ds1 /\
    train epoch fresh ls name m init' (last ds1 []) = Ok ds2 /\
    train epoch fresh ls name (n + m) init [] = Ok ds /\
    disk_read (last ds2 []) (ckpt name (n + m - 1)) = Some (Full w) /\
    disk_read (last ds []) (ckpt name (n + m - 1)) = Some (Full w).
Proof.
  intros W O epoch fresh ls name n m init init' LS H N M.
  destruct (run_last epoch fresh ls name [] n init LS N) as (ds1 & T1 & new1 & E1 & L1 & pre1 & P1).
  destruct (run_last epoch fresh ls name new1 m init' LS M) as (ds2 & T2 & new2 & E2 & L2 & pre2 & P2).
  destruct (run_last epoch fresh ls name [] (n + m) init LS ltac:(lia)) as (ds & T & new & E & L & pre & P).
  cbn [app List.length last] in *. exists ds1, ds2, ds.
  assert (F : @foreign W name []) by (intros f []).
  exists (fst (steps epoch (n + m) 0 (init, fresh))).
  split; [exact T1|]. split; [rewrite E1; exact T2|]. split; [exact T|].
  assert (R : forall (ws : list W) (w : W), List.length ws = (n + m - 1)%nat -> disk_read (saved name (ws ++ [w])) (ckpt name (n + m - 1)) = Some (Full w)).
  { intros ws w L0. rewrite <- L0. exact (read_last name [] ws w F). }
  split.
  - rewrite E2, P2, app_assoc, R.
    + do 2 f_equal. rewrite L1, P1, last_last, steps_app. cbn [Nat.add].
      apply steps_stateless; [exact H|]. reflexivity.
    + rewrite P2, app_length in L2. rewrite app_length. cbn in L2. lia.
  - rewrite E, P, R; [reflexivity|]. rewrite P, app_length in L. cbn in L. lia.
Qed.
Print Assumptions C59_stateless_partial.

(** With an optimizer that has any state the claim fails: here the epoch adds the
    number of epochs this optimizer has seen, as a momentum term would. *)
Theorem C59_refuted : exists (epoch : nat -> Z * Z -> Z * Z) fresh n m init ds1 ds2 ds w1 w2,
  train epoch fresh (fun l => l) "transformer" n init [] = Ok ds1 /\
  train epoch fresh (fun l => l) "transformer" m init (last ds1 []) = Ok ds2 /\
  train epoch fresh (fun l => l) "transformer" (n + m) init [] = Ok ds /\
  disk_read (last ds2 []) (ckpt "transformer" (n + m - 1)) = Some (Full w1) /\
  disk_read (last ds []) (ckpt "transformer" (n + m - 1)) = Some (Full w2) /\ w1 <> w2.
Proof.
  exists (fun i s => (fst s + snd s + 1, snd s + 1)), 0, 1%nat, 1%nat, 0. do 5 eexists.
  split; [vm_compute; reflexivity|]. split; [vm_compute; reflexivity|]. split; [vm_compute; reflexivity|].
  split; [vm_compute; reflexivity|]. split; [vm_compute; reflexivity|]. discriminate.
Qed.
Print Assumptions C59_refuted.

(** ** C60: the learning-rate multiplier *)
From Coq Require Import Reals Lra.
From Verif Require Import LearningRate.
Open Scope R_scope.

Theorem C60_warmup : forall s, (0 <= s <= 1000)%Z -> lr_lambda s = IZR s / 1000.
Proof.
  intros s H. unfold lr_lambda, warmup_steps. destruct (Z.ltb_spec s 1000) as [Q|Q]; [reflexivity|].
  assert (s = 1000%Z) as -> by lia.
  replace (PI * IZR (1000 - 1000) / IZR (Z.max 1 (total_steps - 1000))) with 0.
  - rewrite cos_0. lra.
  - rewrite Z.sub_diag. unfold Rdiv. rewrite Rmult_0_r. now rewrite Rmult_0_l.
Qed.
Print Assumptions C60_warmup.

Theorem C60_bounds : forall s, (0 <= s)%Z -> 0 <= lr_lambda s <= 1.
Proof.
  intros s H. unfold lr_lambda, warmup_steps. destruct (Z.ltb_spec s 1000) as [Q|Q].
  - change (Z.max 1 1000) with 1000%Z. apply IZR_le in H. apply IZR_lt in Q. lra.
  - pose proof (COS_bound (PI * IZR (s - 1000) / IZR (Z.max 1 (total_steps - 1000)))). lra.
Qed.
Print Assumptions C60_bounds.

Theorem C60_decay : forall s t, (1000 <= s <= t)%Z -> (t <= 1000000)%Z -> lr_lambda t <= lr_lambda s.
Proof.
  intros s t H T. destruct (Z.eq_dec s t) as [->|N]; [lra|].
  unfold lr_lambda, warmup_steps. rewrite (proj2 (Z.ltb_ge s 1000)), (proj2 (Z.ltb_ge t 1000)) by lia.
  change (Z.max 1 (total_steps - 1000)) with 999000%Z.
  assert (X : forall u, (1000 <= u <= 1000000)%Z -> 0 <= PI * IZR (u - 1000) / 999000 <= PI).
  { intros u U. assert (0 <= IZR (u - 1000) <= 999000) as [U1 U2] by (split; apply IZR_le; lia).
    pose proof PI_RGT_0. split.
    - apply Rmult_le_pos; [apply Rmult_le_pos; lra|lra].
    - replace PI with (PI * 999000 / 999000) at 2 by field. apply Rmult_le_compat_r; [lra|]. apply Rmult_le_compat_l; lra. }
  destruct (X s ltac:(lia)) as [S1 S2]. destruct (X t ltac:(lia)) as [T1 T2].
  assert (Y : PI * IZR (s - 1000) / 999000 < PI * IZR (t - 1000) / 999000).
  { assert (IZR (s - 1000) < IZR (t - 1000)) by (apply IZR_lt; lia). pose proof PI_RGT_0.
    apply Rmult_lt_compat_r; [lra|]. apply Rmult_lt_compat_l; lra. }
  pose proof (cos_decreasing_1 _ _ S1 S2 T1 T2 Y). lra.
Qed.
Print Assumptions C60_decay.

(** It ends at zero. *)
Theorem C60_end : lr_lambda 1000000 = 0.
Proof.
  unfold lr_lambda. change (1000000 <? warmup_steps)%Z with false. cbv iota.
  change (1000000 - warmup_steps)%Z with 999000%Z. change (Z.max 1 (total_steps - warmup_steps)) with 999000%Z.
  replace (PI * 999000 / 999000) with PI by field. rewrite cos_PI. lra.
Qed.
Print Assumptions C60_end.

Example C60_example : lr_lambda 500 = 1 / 2 /\ lr_lambda 500500 = 1 / 2.
Proof.
  split.
  - rewrite C60_warmup by lia. lra.
  - unfold lr_lambda. change (500500 <? warmup_steps)%Z with false. cbv iota.
    change (500500 - warmup_steps)%Z with 499500%Z. change (Z.max 1 (total_steps - warmup_steps)) with 999000%Z.
    replace (PI * 499500 / 999000) with (PI / 2) by field. rewrite cos_PI2. lra.
Qed.
