(** Properties C53, C54 (one pass over a directory) and C61 (validation). *)
From Coq Require Import ZArith List Bool String Lia Arith.
From Verif Require Import Base DataLoader SpecData DataLemmas.
Import ListNotations.
Open Scope Z_scope.

(** ** C53 *)
Theorem C53_epoch : forall G (proc : string -> res G) files n, (1 <= n)%nat -> no_abort proc files ->
  exists bs d', iterate proc (S (List.length files)) (dl_init files (Z.of_nat n)) = Some (bs, Ok tt, d') /\
    batched n (games proc files) bs.
Proof.
  intros G proc files n N NA.
  destruct (iterate_ok proc n (dl_init files (Z.of_nat n)) (List.length files)) as (bs & d' & E & B & _);
    cbn [dl_files dl_cur dl_bs dl_init skipn]; [lia|exact N|reflexivity|exact NA|]. eauto.
Qed.
Print Assumptions C53_epoch.

Definition demo_proc (f : string) : res Z :=
  if String.eqb f "bad" then Err InvalidGameException else Ok (Z.of_nat (String.length f)).
Example C53_example : no_abort demo_proc ["a"; "bad"; "bb"; "cccc"; "bad"]%string /\
  option_map (fun x => fst (fst x)) (iterate demo_proc 6 (dl_init ["a"; "bad"; "bb"; "cccc"; "bad"]%string 2)) = Some [[1; 2]; [4]].
Proof.
  split; [|reflexivity]. intros f F. unfold demo_proc. destruct (String.eqb f "bad"); split; discriminate.
Qed.

(** ** C54 *)
(** Whatever the files do (including aborting), the loop is over after one call of
    [__next__] per file plus one. *)
Theorem C54_terminates : forall G (proc : string -> res G) files bs, 1 <= bs ->
  exists r, iterate proc (S (List.length files)) (dl_init files bs) = Some r /\ (List.length (fst (fst r)) <= List.length files)%nat.
Proof.
  intros G proc files bs B. destruct (iterate_ends proc (List.length files) (dl_init files bs)) as (r & E & L); cbn [dl_files dl_cur dl_bs dl_init] in *; [lia|exact B|].
  exists r. split; [exact E|]. lia.
Qed.
Print Assumptions C54_terminates.

(** After any iteration, complete or not, [reset] makes the loader start over: the
    next pass gives the same batches and ends in the same way. *)
Theorem C54_same_again : forall G (proc : string -> res G) files bs f batches o d,
  iterate proc f (dl_init files bs) = Some (batches, o, d) ->
  exists d', iterate proc f (dl_reset d) = Some (batches, o, d').
Proof.
  intros G proc files bs f batches o d H.
  destruct (iterate_static proc f _ _ _ _ H) as [A B].
  pose proof (iterate_same proc f (dl_reset d) (dl_init files bs) A eq_refl B) as S. rewrite H in S.
  destruct (iterate proc f (dl_reset d)) as [[[b' o'] d']|]; [|discriminate]. cbn in S. injection S as -> ->. now exists d'.
Qed.
Print Assumptions C54_same_again.

(** A batch size below one never terminates on a non-empty directory. *)
Theorem C54_needs_positive : forall G (proc : string -> res G) files bs f, bs <= 0 -> files <> [] -> iterate proc f (dl_init files bs) = None.
Proof.
  intros G proc files bs f B N. apply iterate_stuck; cbn [dl_bs dl_cur dl_files dl_init]; [exact B|]. destruct files; [congruence|cbn; lia].
Qed.
Print Assumptions C54_needs_positive.

Example C54_example : exists r, iterate demo_proc 6 (dl_init ["a"; "bad"; "bb"; "cccc"; "bad"]%string 2) = Some r /\
  fst (fst r) = [[1; 2]; [4]] /\ dl_cur (snd r) = 5%nat /\
  option_map (fun x => fst (fst x)) (iterate demo_proc 6 (dl_reset (snd r))) = Some [[1; 2]; [4]].
Proof. eexists. split; [vm_compute; reflexivity|]. repeat split. Qed.

(** ** C61 *)
(** Every successful or division-by-zero validation leaves the loader at the start. *)
Inductive validated {G L} (proc : string -> res G) (losses : list G -> res (list L)) (files : list string) (bs : Z) : @loader -> Prop :=
| v_new : validated proc losses files bs (dl_init files bs)
| v_step f d l o d' : validated proc losses files bs d -> estimate_loss proc losses f bs d = Some (l, Ok o, d') ->
    validated proc losses files bs d'.

Lemma validated_start {G L} (proc : string -> res G) (losses : list G -> res (list L)) files bs d : validated proc losses files bs d ->
  dl_files d = files /\ dl_cur d = 0%nat /\ dl_bs d = bs.
Proof.
  induction 1 as [|f d l o d' H (A & B & C) E]; [auto|]. unfold estimate_loss in E.
  destruct (val_loop proc losses f bs 0 d) as [[[l' [n|x]] e]|] eqn:V; try discriminate.
  destruct (val_static proc losses f bs 0 d l' (Ok n) e V) as [F1 F2].
  destruct n; [discriminate|]. injection E as <- <- <-. cbn. repeat split; congruence.
Qed.

Theorem C61_same_batches : forall G L (proc : string -> res G) (losses : list G -> res (list L)) files bs d f,
  validated proc losses files bs d ->
  option_map fst (estimate_loss proc losses f bs d) = option_map fst (estimate_loss proc losses f bs (dl_init files bs)).
Proof.
  intros G L proc losses files bs d f V. destruct (validated_start _ _ _ _ _ V) as (A & B & C).
  pose proof (val_same proc losses f bs 0 d (dl_init files bs) A B C) as S. unfold estimate_loss.
  destruct (val_loop proc losses f bs 0 d) as [[[l o] e]|], (val_loop proc losses f bs 0 (dl_init files bs)) as [[[l' o'] e']|]; cbn in S; try discriminate; [|reflexivity].
  injection S as -> ->. destruct o' as [[|n ns]|x]; reflexivity.
Qed.
Print Assumptions C61_same_batches.

(** They are the first batches of the directory, and at most ceil(20/bs) + 1 of them.  *)
Theorem C61_leading_bounded : forall G L (proc : string -> res G) (losses : list G -> res (list L)) files bs f l o d', 1 <= bs ->
  estimate_loss proc losses f bs (dl_init files bs) = Some (l, o, d') ->
  (forall f' all r e, iterate proc f' (dl_init files bs) = Some (all, r, e) -> exists more, all = l ++ more) /\
  (Z.of_nat (List.length l) - 2) * bs < 20.
Proof.
  intros G L proc losses files bs f l o d' B H. unfold estimate_loss in H.
  destruct (val_loop proc losses f bs 0 (dl_init files bs)) as [[[l' o'] e]|] eqn:V; [|discriminate].
  assert (l' = l) as -> by (destruct o' as [[|n ns]|x]; now injection H as <- _ _).
  split; [exact (val_prefix proc losses f bs 0 _ _ _ _ V)|].
  destruct (val_bound proc losses f bs B 0 _ _ _ _ V) as [->|[W|W]].
  - change (Z.of_nat (List.length (@nil (list G)))) with 0. lia.
  - change (Z.of_nat 0) with 0 in W. lia.
  - rewrite W. change (Z.of_nat 1) with 1. lia.
Qed.
Print Assumptions C61_leading_bounded.

(** A validation that succeeds averages all losses of those batches, in order and each
    once, and stops before the end of the directory only after the batch that starts with
    game 20 or later. *)
Theorem C61_all_losses : forall G L (proc : string -> res G) (losses : list G -> res (list L)) files bs f l ls d', 1 <= bs ->
  estimate_loss proc losses f bs (dl_init files bs) = Some (l, Ok ls, d') ->
  (exists parts, Forall2 (fun b p => losses b = Ok p) l parts /\ ls = List.concat parts) /\ ls <> [] /\
  exists all o d, iterate proc (S (List.length files)) (dl_init files bs) = Some (all, o, d) /\
    exists more, all = l ++ more /\ ((more = [] /\ o = Ok tt) \/ 20 <= (Z.of_nat (List.length l) - 1) * bs).
Proof.
  intros G L proc losses files bs f l ls d' B H. unfold estimate_loss in H.
  destruct (val_loop proc losses f bs 0 (dl_init files bs)) as [[[l' [[|x xs]|e']] e]|] eqn:V; try discriminate. injection H as <- <- _.
  destruct (val_exact proc losses f bs 0 _ _ _ _ V) as [P X]. split; [exact P|]. split; [discriminate|].
  destruct (C54_terminates G proc files bs B) as ([[all o] d] & I & _). exists all, o, d. split; [exact I|].
  destruct (X _ _ _ _ I) as (more & E & C). exists more. split; [exact E|]. destruct C as [C|[_ C]]; [now left|]. right. lia.
Qed.
Print Assumptions C61_all_losses.

(** [(k - 2) * bs < 20] is [k <= ceil(20 / bs) + 1]. *)
Lemma C61_bound_reading : forall k bs, 1 <= bs -> (k - 2) * bs < 20 <-> k <= (20 + bs - 1) / bs + 1.
Proof.
  intros k bs B. pose proof (Z.div_mod (20 + bs - 1) bs ltac:(lia)) as D. pose proof (Z.mod_pos_bound (20 + bs - 1) bs ltac:(lia)) as M.
  set (q := (20 + bs - 1) / bs) in *. split; intros H; nia.
Qed.

Example C61_example : option_map fst (estimate_loss demo_proc (fun b => Ok b) 10 5
   (dl_init ["a"; "bad"; "bb"; "cccc"; "bad"]%string 5)) = Some ([[1; 2; 4]], Ok [1; 2; 4]).
Proof. reflexivity. Qed.

(** When no batch gives a loss the pass raises instead of returning. *)
Theorem C61_empty_raises : forall G L (proc : string -> res G) (losses : list G -> res (list L)) bs,
  option_map fst (estimate_loss proc losses 1 bs (dl_init [] bs)) = Some ([], Err ZeroDivisionError).
Proof. reflexivity. Qed.
Print Assumptions C61_empty_raises.

(** ** C107: a failed assertion *)
(** The first file that fails an assertion ends the pass with an exit.  The loop has then
    seen the games before it in batches of full size; the games of the batch it interrupts
    are lost. *)
Theorem C107_exit : forall G (proc : string -> res G) before f after n, (1 <= n)%nat -> no_abort proc before ->
  proc f = Err AssertionError ->
  exists bs lost d', iterate proc (S (List.length (before ++ f :: after))) (dl_init (before ++ f :: after) (Z.of_nat n)) = Some (bs, Err SystemExit, d') /\
    List.concat bs ++ lost = games proc before /\ Forall (fun b => List.length b = n) bs /\ (List.length lost < n)%nat.
Proof.
  intros G proc before f after n N NA P.
  apply (iterate_abort proc n N _ (dl_init (before ++ f :: after) (Z.of_nat n)) before f after); auto. rewrite app_length. cbn [List.length]. lia.
Qed.
Print Assumptions C107_exit.

(** Nothing else ends it: a pass that ends with an exit has met such a file, or one whose
    processing itself exits; every other exception is skipped. *)
Theorem C107_only : forall G (proc : string -> res G) files n k bs e d', (1 <= n)%nat ->
  iterate proc k (dl_init files (Z.of_nat n)) = Some (bs, Err e, d') ->
  exists f, In f files /\ (proc f = Err AssertionError \/ proc f = Err SystemExit).
Proof.
  intros G proc files n k bs e d' N H.
  assert (D : {f | In f files /\ (proc f = Err AssertionError \/ proc f = Err SystemExit)} + {no_abort proc files}).
  { clear. induction files as [|f l [(g & I & Q)|NA]]; [right; intros ? []|left; exists g; cbn; auto|].
    destruct (proc f) as [x|e] eqn:E; [right|destruct e eqn:Ee; try (left; exists f; split; [now left|rewrite E; auto]; fail); right];
      (intros g [<-|I]; [rewrite E; split; discriminate|exact (NA g I)]). }
  destruct D as [(f & I & Q)|NA]; [eauto|]. exfalso.
  destruct (C53_epoch G proc files n N NA) as (bs' & d2 & E & _).
  assert (M : forall a b d r r', iterate proc a d = Some r -> iterate proc b d = Some r' -> r = r').
  { clear. induction a as [|a IH]; intros [|b] d r r' H1 H2; try discriminate. cbn [iterate] in H1, H2.
    destruct (dl_next proc d) as [[x|x] y]; [|destruct x; congruence].
    destruct (iterate proc a y) as [[[p q] z]|] eqn:E1; [|discriminate H1]. destruct (iterate proc b y) as [[[p' q'] z']|] eqn:E2; [|discriminate H2].
    specialize (IH _ _ _ _ E1 E2). congruence. }
  specialize (M _ _ _ _ _ H E). discriminate M.
Qed.
Print Assumptions C107_only.

Definition demo_fail (f : string) : res Z := if String.eqb f "worse" then Err AssertionError else demo_proc f.
Example C107_example : no_abort demo_fail ["a"; "bad"; "bb"; "cccc"]%string /\
  option_map fst (iterate demo_fail 7 (dl_init ["a"; "bad"; "bb"; "cccc"; "worse"; "a"]%string 2)) = Some ([[1; 2]], Err SystemExit).
Proof.
  split; [|reflexivity]. intros f F. unfold demo_fail, demo_proc.
  destruct F as [<-|[<-|[<-|[<-|[]]]]]; split; discriminate.
Qed.
