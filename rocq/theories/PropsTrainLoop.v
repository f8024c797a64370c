(** C87-C90: training runs.  [run_trace], [fed], [selection], [due], [update_numbers]:
    SpecTrainLoop.v. *)
From Coq Require Import ZArith List Bool String Reals Lia Lra.
From Verif Require Import Base Constants Naki Decision Process DataLoader SpecData DataLemmas Tensor RoundExamples LearningRate Train TrainLoop SpecTrainLoop TrainLoopLemmas VecLemmas.
Import ListNotations.
Open Scope Z_scope.

(** ** C87: what a run trains on *)

(** A run that comes to its end has, in every iteration and for every batch of the
    directory whose turn it is, made one update per head that has samples - during,
    discard, post - on whole rows of that batch, at most 2250 of them and none twice; it
    has validated after the batches that were due and saved a checkpoint after each
    iteration, and done nothing else. *)
Theorem C87_run : forall a proc rnd fuel bs m start train val s, random_orders rnd -> 0 < bs ->
  run a proc rnd fuel bs m start train val = Ok s -> run_trace a proc bs train val m start 0 (t_trace s).
Proof.
  intros a proc rnd fuel bs m start train val s R B H. unfold run in H.
  assert (F : Forall2 (rested bs) train (map (fun f => dl_init f bs) train)).
  { clear. induction train as [|f l IH]; constructor; [|exact IH]. repeat split. }
  destruct (run_ok a proc rnd R fuel bs train val B m start _ _ s F H (conj eq_refl eq_refl) (conj eq_refl (conj eq_refl eq_refl))) as (evs & T & E & _).
  cbn [t_trace t_sched app] in T, E. rewrite E. exact T.
Qed.
Print Assumptions C87_run.

(** Rows stay together: the tensors of an update are the tensors of the selected samples,
    and an update contains a sample exactly as often as the selection. *)
Theorem C87_rows_together : forall rows sel, selection row_limit rows sel ->
  incl sel rows /\ (List.length sel <= 2250)%nat /\
  c_y (columns_of sel) = map r_label sel /\ c_tokens (columns_of sel) = map r_tokens sel /\ c_mask (columns_of sel) = map r_mask sel.
Proof.
  intros rows sel S. split; [|split; [|repeat split]].
  - destruct S as [[_ ->]|(_ & idx & _ & _ & F)]; [apply incl_refl|]. intros r I. clear - F I. induction F as [|i x idx sel H _ IH]; [destruct I|].
    destruct I as [<-|I]; [apply (nth_error_In _ _ H)|exact (IH I)].
  - destruct S as [[L ->]|(_ & idx & _ & L & F)]; [exact L|]. apply Forall2_len in F. rewrite <- F, L. apply Nat.le_refl.
Qed.
Print Assumptions C87_rows_together.

(** Two files in the training directory, one of them rejected; the other is the example round. *)
Definition demo (f : string) : res game :=
  if String.eqb f "good" then '(h, tk) <- process_round ex_libs 169 small_round ;; Ok ([h], [tk])
  else Err InvalidGameException.
Definition in_order (_ : Z) (n : nat) : list nat := seq 0 n.
Definition summary (e : tevent) : Z * Z :=
  match e with
  | Update k _ h c => (k, 10 * Z.of_nat (List.length (c_y c)) + match h with During => 1 | Discard => 2 | Post => 3 end)
  | Validate i b _ _ => (-1, Z.of_nat b)
  | Save i => (-2, Z.of_nat i)
  end.
Example C87_example :
  random_orders in_order /\
  (s <- run ORDERED demo in_order 10 1 1 0 [["bad"; "good"; "good"]]%string ["good"]%string ;; Ok (map summary (t_trace s))) =
  Ok [(0, 51); (1, 72); (2, 23); (-1, 0); (3, 51); (4, 72); (5, 23); (-2, 0)].
Proof. split; [intros k n; apply Permutation.Permutation_refl|]. vm_compute. reflexivity. Qed.

(** ** C88: the learning rate of the k-th update is the k-th of the schedule *)
Theorem C88_schedule : forall a proc rnd fuel bs m start train val s, random_orders rnd -> 0 < bs ->
  run a proc rnd fuel bs m start train val = Ok s ->
  exists n, update_numbers (t_trace s) = map Z.of_nat (seq 0 n).
Proof.
  intros a proc rnd fuel bs m start train val s R B H. apply C87_run in H; [|exact R|exact B].
  destruct (run_numbers _ _ _ _ _ _ _ _ _ H) as (n & E). exists n. rewrite E. apply map_ext. intros i. lia.
Qed.
Print Assumptions C88_schedule.

(** So the first update of every run has learning rate 0 and changes no parameter. *)
Theorem C88_first_update_idle : forall t g p m v,
  fst (fst (adamw (0.001 * lr_lambda 0) t g p m v)) = p.
Proof.
  intros t g p m v. unfold adamw. cbn [fst].
  assert (E : lr_lambda 0 = 0%R) by (unfold lr_lambda, warmup_steps; cbn; lra). rewrite E. lra.
Qed.
Print Assumptions C88_first_update_idle.
Example C88_example : (s <- run ORDERED demo in_order 10 1 2 5 [["good"]]%string ["good"]%string ;; Ok (update_numbers (t_trace s))) = Ok [0; 1; 2; 3; 4; 5].
Proof. vm_compute. reflexivity. Qed.

(** ** C89: validation once per 1000 games *)

(** Every block of 1000 games has exactly one batch after which the model is validated ... *)
Theorem C89_once_per_block : forall bs j, 0 < bs <= 1000 -> 0 <= j ->
  exists k, validates bs k = true /\ 1000 * j <= Z.of_nat k * bs < 1000 * (j + 1) /\
  forall k', validates bs k' = true -> 1000 * j <= Z.of_nat k' * bs < 1000 * (j + 1) -> k' = k.
Proof.
  intros bs j B J.
  set (q := (1000 * j + (bs - 1)) / bs).
  pose proof (Z.div_mod (1000 * j + (bs - 1)) bs ltac:(lia)) as D. pose proof (Z.mod_pos_bound (1000 * j + (bs - 1)) bs ltac:(lia)) as M. fold q in D.
  assert (Q : 0 <= q) by (apply Z.div_pos; lia).
  assert (X : 1000 * j <= q * bs < 1000 * j + bs) by lia.
  exists (Z.to_nat q). rewrite due_ok by lia. unfold due. rewrite Z2Nat.id by exact Q. split; [exists j; exact X|]. split; [lia|].
  intros k' H R. rewrite due_ok in H by lia. destruct H as (j' & H).
  assert (j' = j) by nia. subst j'. assert (Z.of_nat k' = q) by nia. lia.
Qed.
Print Assumptions C89_once_per_block.

(** ... and with the batch sizes in use it is the one that starts with game 1000 j. *)
Theorem C89_batch_sizes : forall name bs k, In name model_names -> batch_size_of name = Some bs ->
  (validates bs k = true <-> Z.of_nat k * bs mod 1000 = 0).
Proof.
  intros name bs k I E. assert (X : bs = 5 \/ bs = 2 \/ bs = 4 \/ bs = 1).
  { unfold model_names in I. repeat (destruct I as [<-|I]; [vm_compute in E; injection E as <-; auto|]). destruct I. }
  unfold validates. rewrite Z.ltb_lt. set (x := Z.of_nat k).
  assert (D : (x * bs) mod 1000 = bs * (x mod (1000 / bs))).
  { destruct X as [->|[->|[->| ->]]]; rewrite (Z.mul_comm x).
    - exact (Z.mul_mod_distr_l x 200 5 ltac:(lia) ltac:(lia)).
    - exact (Z.mul_mod_distr_l x 500 2 ltac:(lia) ltac:(lia)).
    - exact (Z.mul_mod_distr_l x 250 4 ltac:(lia) ltac:(lia)).
    - exact (Z.mul_mod_distr_l x 1000 1 ltac:(lia) ltac:(lia)). }
  rewrite D. set (y := x mod (1000 / bs)). assert (0 <= y).
  { unfold y. apply Z.mod_pos_bound. destruct X as [->|[->|[->| ->]]]; reflexivity. }
  destruct X as [->|[->|[->| ->]]]; lia.
Qed.
Print Assumptions C89_batch_sizes.
(** All nine names have one. *)
Theorem C89_known_names : forall name, In name model_names -> exists bs, batch_size_of name = Some bs /\ 0 < bs <= 5.
Proof.
  intros name I. unfold model_names in I. repeat (destruct I as [<-|I]; [eexists; split; [vm_compute; reflexivity|lia]|]). destruct I.
Qed.
Print Assumptions C89_known_names.
Example C89_example : filter (validates 5) (seq 0 1001) = [0; 200; 400; 600; 800; 1000]%nat /\
  filter (validates 7) (seq 0 300) = [0; 143; 286]%nat.
Proof. split; vm_compute; reflexivity. Qed.

(** ** C90: batches without samples *)

Lemma heads_total rnd : random_orders rnd -> forall s t, exists s1, foldM (head_step rnd) s (heads t) = Ok s1.
Proof.
  intros R s t. unfold heads. cbn [foldM].
  assert (Q : forall s h rows, exists s', head_step rnd s (h, columns_of rows) = Ok s').
  { intros s0 h rows. unfold head_step. change sample_size with row_limit.
    destruct (head_input_ok row_limit rows (rnd (t_step s0)) (R (t_step s0))) as [[_ X]|(_ & sel & _ & X)]; rewrite X; eexists; reflexivity. }
  destruct (Q s During (t_during t)) as (s1 & ->). cbn [bind]. destruct (Q s1 Discard (t_discard t)) as (s2 & ->). cbn [bind].
  destruct (Q s2 Post (t_post t)) as (s3 & ->). eexists. reflexivity.
Qed.

(** With tensors and validation in order, a batch fails exactly when validation is due,
    it has no samples and no batch of the run had any: then the loss to be logged does
    not exist. *)
Theorem C90_exact_partial : forall a proc rnd fuel bs iter s k b t l n v, random_orders rnd -> 0 < bs -> ready s ->
  prepare_batches a b = Ok t -> estimate_loss proc (val_losses a) fuel bs (t_val s) = Some (l, Ok n, v) ->
  (t_loss s = None -> due bs k -> t_during t = [] -> t_discard t = [] -> t_post t = [] ->
     batch_step a proc rnd fuel bs iter s (k, b) = Err UnboundLocalError) /\
  (t_loss s <> None \/ ~ due bs k \/ t_during t <> [] \/ t_discard t <> [] \/ t_post t <> [] ->
     exists s', batch_step a proc rnd fuel bs iter s (k, b) = Ok s' /\ (t_loss s <> None -> t_loss s' <> None)).
Proof.
  intros a proc rnd fuel bs iter s k b t l n v R B E P V.
  pose proof (heads_total rnd R s t) as H.
  destruct H as (s1 & H). destruct (heads_ok rnd R _ _ _ H E) as (d & e & f & _ & _ & _ & _ & _ & _ & Hv & Hl).
  unfold batch_step. rewrite P. cbn [bind]. rewrite H. cbn [bind]. cbn [set_mode t_val t_loss]. rewrite Hv, V. split.
  - intros L D A1 A2 A3. rewrite (proj2 (due_ok bs k B) D). rewrite (proj2 Hl) by auto. reflexivity.
  - intros C. destruct (validates bs k) eqn:D.
    + destruct (t_loss s1) as [x|] eqn:L1.
      * eexists. split; [reflexivity|]. cbn [set_mode t_loss]. congruence.
      * apply Hl in L1 as (L & A1 & A2 & A3) || (destruct (proj1 Hl eq_refl) as (L & A1 & A2 & A3)).
        apply due_ok in D; [|exact B]. exfalso. tauto.
    + eexists. split; [reflexivity|]. intros N X. apply Hl in X. tauto.
Qed.
Print Assumptions C90_exact_partial.

(** A rejected file that ends its directory stops the run of the three unordered models:
    the batch it leaves is empty.  The ordered model accepts that batch, but not before
    the first sample of the run. *)
Theorem C90_refuted : exists proc rnd, random_orders rnd /\
  (forall a, a <> ORDERED -> run a proc rnd 10 1 1 0 [["good"; "bad"]]%string ["good"]%string = Err ValueError /\
    (exists s, run a proc rnd 10 1 1 0 [["bad"; "good"]]%string ["good"]%string = Ok s)) /\
  (exists s, run ORDERED proc rnd 10 1 1 0 [["good"; "bad"]]%string ["good"]%string = Ok s) /\
  run ORDERED proc rnd 10 1 2 0 [["bad"]; ["good"]]%string ["good"]%string = Err UnboundLocalError /\
  (exists s, run ORDERED proc rnd 10 1 2 1 [["bad"]; ["good"]]%string ["good"]%string = Ok s).
Proof.
  assert (Q : forall r : res tstate, match r with Ok _ => true | Err _ => false end = true -> exists s, r = Ok s).
  { intros [s|e] H; [now exists s|discriminate H]. }
  exists demo, in_order. split; [intros k n; apply Permutation.Permutation_refl|].
  split; [intros [| | |] N; [| | |now destruct N]; (split; [vm_compute; reflexivity|apply Q; vm_compute; reflexivity])|].
  split; [apply Q; vm_compute; reflexivity|]. split; [vm_compute; reflexivity|]. apply Q. vm_compute. reflexivity.
Qed.
Print Assumptions C90_refuted.

(** Validation needs a file: with an empty validation directory every run that reaches a
    due batch dies in the division by the number of losses. *)
Theorem C90_no_validation_files : forall a proc rnd fuel bs iter s k b t, random_orders rnd -> 0 < bs -> due bs k -> ready s ->
  prepare_batches a b = Ok t -> dl_files (t_val s) = [] ->
  batch_step a proc rnd (S fuel) bs iter s (k, b) = Err ZeroDivisionError.
Proof.
  intros a proc rnd fuel bs iter s k b t R B D E P F.
  destruct (heads_total rnd R s t) as (s1 & H). destruct (heads_ok rnd R _ _ _ H E) as (d & e & f & _ & _ & _ & _ & _ & _ & Hv & _).
  unfold batch_step. rewrite P. cbn [bind]. rewrite H. cbn [bind]. cbn [set_mode t_val t_loss]. rewrite (proj2 (due_ok bs k B) D), Hv.
  unfold estimate_loss. cbn [val_loop]. unfold dl_next. rewrite F. reflexivity.
Qed.
Print Assumptions C90_no_validation_files.

(** ** C101: dropout *)
(** In every run that comes to its end all updates are made in training mode and all
    validations in evaluation mode, however many validations lie in between. *)
Theorem C101_modes : forall a proc rnd fuel bs m start train val s, random_orders rnd -> 0 < bs ->
  run a proc rnd fuel bs m start train val = Ok s ->
  (forall k md h c, In (Update k md h c) (t_trace s) -> md = Training) /\ (forall iter k md l, In (Validate iter k md l) (t_trace s) -> md = Evaluation).
Proof.
  intros a proc rnd fuel bs m start train val s R B H. apply C87_run in H; [|exact R|exact B].
  pose (good := fun e => match e with Update _ md _ _ => md = Training | Validate _ _ md _ => md = Evaluation | Save _ => True end).
  assert (F : forall h rows z evs, fed h rows z evs -> Forall good evs) by (intros h rows z evs [[_ ->]|(_ & sel & _ & ->)]; repeat constructor).
  assert (V : forall iter k evs, validated a proc bs val iter k evs -> Forall good evs) by (intros iter k evs [(_ & l & _ & ->)|[_ ->]]; repeat constructor).
  assert (T : forall iter k batches z evs z', iteration_trace a proc bs val iter k batches z evs z' -> Forall good evs).
  { induction 1; [constructor|]. repeat (apply Forall_app; split); eauto. }
  assert (G : forall m iter z evs, run_trace a proc bs train val m iter z evs -> Forall good evs).
  { induction 1; [constructor|]. apply Forall_app. split; [eauto|]. constructor; [exact Logic.I|assumption]. }
  apply G in H. clear G. rename H into G.
  rewrite Forall_forall in G. split; [intros k md h c I|intros iter k md l I]; exact (G _ I).
Qed.
Print Assumptions C101_modes.
(** Two due batches in one run: updates follow the first validation. *)
Example C101_example : (s <- run ORDERED demo in_order 10 1 2 0 [["good"]]%string ["good"]%string ;;
    Ok (map (fun e => match e with Update _ Training _ _ => 1 | Update _ Evaluation _ _ => 2 | Validate _ _ Training _ => 3 | Validate _ _ Evaluation _ => 4 | Save _ => 5 end) (t_trace s))) =
  Ok [1; 1; 1; 4; 5; 1; 1; 1; 4; 5].
Proof. vm_compute. reflexivity. Qed.

(** ** C108: the validation loss *)
(** The losses of a validation are computed from all rows of every head that has samples,
    batch by batch; nothing is drawn at random.  So the set is the same in every validation
    of a run, and of every other run on the same directory. *)
Theorem C108_rows : forall a proc rnd fuel bs m start train val s, random_orders rnd -> 0 < bs ->
  run a proc rnd fuel bs m start train val = Ok s ->
  forall iter k md l, In (Validate iter k md l) (t_trace s) -> validation a proc bs val l.
Proof.
  intros a proc rnd fuel bs m start train val s R B H. apply C87_run in H; [|exact R|exact B].
  pose (good := fun e => match e with Validate _ _ _ l => validation a proc bs val l | _ => True end).
  assert (F : forall h rows z evs, fed h rows z evs -> Forall good evs) by (intros h rows z evs [[_ ->]|(_ & sel & _ & ->)]; repeat constructor).
  assert (V : forall iter k evs, validated a proc bs val iter k evs -> Forall good evs).
  { intros iter k evs [(_ & l & Q & ->)|[_ ->]]; constructor; [exact Q|constructor]. }
  assert (T : forall iter k batches z evs z', iteration_trace a proc bs val iter k batches z evs z' -> Forall good evs).
  { induction 1; [constructor|]. repeat (apply Forall_app; split); eauto. }
  assert (G : forall m iter z evs, run_trace a proc bs train val m iter z evs -> Forall good evs).
  { induction 1; [constructor|]. apply Forall_app. split; [eauto|]. constructor; [exact Logic.I|assumption]. }
  apply G in H. clear G. rename H into G. rewrite Forall_forall in G. intros iter k md l I. exact (G _ I).
Qed.
Print Assumptions C108_rows.

Lemma evaluated_unique a b l l' : evaluated a b l -> evaluated a b l' -> l = l'.
Proof. intros (t & P & ->) (t' & P' & ->). congruence. Qed.
Lemma leading_unique bs (all lead lead' : list (list game)) : 0 < bs -> leading bs all lead -> leading bs all lead' -> lead = lead'.
Proof.
  intros B (more & E & A1 & A2) (more' & E' & B1 & B2).
  assert (L : List.length lead = List.length lead').
  { pose proof (f_equal (@List.length _) E) as X. pose proof (f_equal (@List.length _) E') as Y. rewrite app_length in X, Y.
    destruct A2 as [->|A2], B2 as [->|B2]; cbn [List.length] in X, Y; try nia. }
  rewrite E in E'. clear -E' L. revert lead' L E'. induction lead as [|x l IH]; intros [|y l'] L E; cbn in L; try discriminate; [reflexivity|].
  cbn in E. injection E as -> E. f_equal. apply IH; [lia|exact E].
Qed.
Theorem C108_same : forall a proc bs val l l', 0 < bs -> validation a proc bs val l -> validation a proc bs val l' -> l = l'.
Proof.
  intros a proc bs val l l' B (all & o & d & lead & parts & I & L & F & -> & _) (all' & o' & d' & lead' & parts' & I' & L' & F' & -> & _).
  rewrite I in I'. injection I' as <- <- <-. assert (lead = lead') as <- by exact (leading_unique bs all lead lead' B L L'). f_equal.
  clear - F F'. revert parts' F'. induction F as [|b p lead parts H _ IH]; intros parts' F'; inversion F' as [|? p' ? parts2 H' F2]; subst; [reflexivity|].
  f_equal; [exact (evaluated_unique _ _ _ _ H H')|exact (IH _ F2)].
Qed.
Print Assumptions C108_same.

(** The reported number is their mean: each of them counts the same. *)
Theorem C108_mean : forall loss l, l <> [] ->
  (average loss l * INR (List.length l) = fold_right Rplus 0 (map loss l))%R /\
  forall lo hi, (forall x, In x l -> lo <= loss x <= hi)%R -> (lo <= average loss l <= hi)%R.
Proof.
  intros loss l N. assert (P : (0 < INR (List.length l))%R) by (destruct l; [congruence|]; apply lt_0_INR; cbn; lia).
  assert (S : forall l t, (fold_left (fun t x => t + loss x) l t = t + fold_right Rplus 0 (map loss l))%R).
  { clear. induction l as [|x l IH]; intros t; cbn; [lra|]. rewrite IH. lra. }
  assert (E : (average loss l * INR (List.length l) = fold_right Rplus 0 (map loss l))%R).
  { unfold average. rewrite S. field. lra. }
  split; [exact E|]. intros lo hi H.
  assert (Q : (lo * INR (List.length l) <= fold_right Rplus 0 (map loss l) <= hi * INR (List.length l))%R).
  { clear - H. induction l as [|x l IH]; [cbn; lra|]. cbn [List.length map fold_right]. rewrite S_INR.
    pose proof (H x (or_introl eq_refl)) as Hx. specialize (IH (fun y I => H y (or_intror I))). lra. }
  rewrite <- E in Q. destruct Q as [Q1 Q2]. split; apply (Rmult_le_reg_r (INR (List.length l))); assumption.
Qed.
Print Assumptions C108_mean.
Example C108_example : (s <- run ORDERED demo in_order 10 1 1 0 [["good"]]%string ["bad"; "good"; "good"]%string ;;
    Ok (flat_map (fun e => match e with Validate _ _ _ l => map (fun x => List.length (c_y (snd x))) l | _ => [] end) (t_trace s))) =
  Ok [5; 7; 2; 5; 7; 2]%nat.
Proof. vm_compute. reflexivity. Qed.
