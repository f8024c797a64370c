(** C102: the command line. *)
From Coq Require Import ZArith List Bool String Ascii Lia Arith Permutation.
From Verif Require Import Base Train SpecTrain TrainLemmas PropsTrain Tensor TrainLoop Cli SpecCli CliLemmas.
Import ListNotations.
Open Scope Z_scope.

Lemma offered_names name : existsb (String.eqb name) model_names = true <-> In name offered.
Proof.
  rewrite existsb_exists. split.
  - intros (x & I & E). apply String.eqb_eq in E. subst x. exact I.
  - intros I. exists name. split; [exact I|apply String.eqb_refl].
Qed.

(** A command line is accepted exactly if it has two arguments, the first is one of the nine
    models and the second spells an integer. *)
Theorem C102_accepted : forall argv name n,
  launch argv = Ok (name, n) <-> exists prog iters, argv = [prog; name; iters] /\ In name offered /\ spells iters n.
Proof.
  intros argv name n. unfold launch. split.
  - destruct argv as [|p [|a [|i [|x r]]]]; try discriminate.
    destruct (existsb (String.eqb a) model_names) eqn:E; [|discriminate]. cbn [passert bind].
    destruct (read_int i) as [z|] eqn:R; [|discriminate]. cbn [bind]. intros H. injection H as <- <-.
    exists p, i. split; [reflexivity|]. split; [now apply offered_names|now apply read_int_spec].
  - intros (p & i & -> & I & S). apply offered_names in I. rewrite I. cbn [passert bind]. apply read_int_spec in S. now rewrite S.
Qed.
Print Assumptions C102_accepted.

(** Every other one stops with the error that fits. *)
Theorem C102_rejected : forall argv e, launch argv = Err e ->
  (List.length argv <> 3%nat /\ e = ValueError) \/
  exists prog name iters, argv = [prog; name; iters] /\
    ((~ In name offered /\ e = AssertionError) \/ (In name offered /\ (forall n, ~ spells iters n) /\ e = ValueError)).
Proof.
  intros argv e. unfold launch.
  destruct argv as [|p [|a [|i [|x r]]]]; try (intros H; injection H as <-; left; split; [cbn; lia|reflexivity]).
  right. exists p, a, i. split; [reflexivity|]. revert H. destruct (existsb (String.eqb a) model_names) eqn:E; cbn [passert bind].
  - destruct (read_int i) as [z|e'] eqn:R; cbn [bind]; [discriminate|]. intros H. injection H as ->. right. split; [now apply offered_names|].
    split; [|now apply (read_int_err i)]. intros n S. apply read_int_spec in S. congruence.
  - intros H. injection H as <-. left. split; [|reflexivity]. intros I. apply offered_names in I. congruence.
Qed.
Print Assumptions C102_rejected.

(** The program never finds an accepted model missing. *)
Lemma names_known name : In name offered -> exists net, network_of name = Ok net.
Proof. intros I. cbn in I. repeat (destruct I as [<-|I]; [eexists; reflexivity|]). destruct I. Qed.

Theorem C102_implemented : forall W O (epoch : agent * option nat * Z -> nat -> W * O -> W * O) init fresh ls argv d,
  main epoch init fresh ls argv d <> Err NotImplementedError.
Proof.
  intros W O epoch init fresh ls argv d H. unfold main in H. destruct (launch argv) as [[name n]|e] eqn:L; cbn [bind] in H.
  - apply C102_accepted in L as (p & i & _ & I & _). destruct (names_known name I) as (net & E). rewrite E in H. cbn [bind] in H.
    unfold train, startup in H. destruct (find_latest name save_dir (ls (map fst d))) as [k [f|]]; [|discriminate H].
    destruct (strip_prefix (save_dir ++ "/") f) as [g|]; [|discriminate H]. destruct (disk_read d g) as [[w|]|]; discriminate H.
  - injection H as ->. apply C102_rejected in L as [[_ L]|(p & name & i & _ & [[_ L]|(_ & _ & L)])]; discriminate L.
Qed.
Print Assumptions C102_implemented.

(** Different models are different networks (class or size), and a network is trained with
    the batch size of its name. *)
Theorem C102_networks : forall a b net size bs bs', network_of a = Ok (net, size, bs) -> network_of b = Ok (net, size, bs') ->
  a = b /\ bs = bs' /\ batch_size_of a = Some bs.
Proof.
  assert (G : forall a x, network_of a = Ok x -> In (a, x)
    [("transformer", (TF, None, 5)); ("transformer_conv", (CONV, None, 5)); ("transformer_conv_large", (LARGE, Some 2%nat, 2));
     ("transformer_conv_large_3", (LARGE, Some 3%nat, 2)); ("transformer_conv_ordered", (ORDERED, Some 1%nat, 4));
     ("transformer_conv_ordered_large_2", (ORDERED, Some 2%nat, 2)); ("transformer_conv_ordered_large_3", (ORDERED, Some 3%nat, 2));
     ("transformer_conv_ordered_large_4", (ORDERED, Some 4%nat, 1)); ("transformer_conv_ordered_large_5", (ORDERED, Some 5%nat, 1))]%string).
  { intros a x. unfold network_of.
    repeat match goal with |- context [String.eqb a ?s] => destruct (String.eqb_spec a s) as [->|_]; [intros H; injection H as <-; cbn; tauto|] end.
    discriminate. }
  intros a b net size bs bs' A B. apply G in A, B. cbn [In] in A, B.
  repeat match type of A with
  | _ \/ _ => destruct A as [A|A]
  end; try contradiction; injection A as <- <- <- <-;
  repeat match type of B with
  | _ \/ _ => destruct B as [B|B]
  end; try contradiction; try discriminate B; injection B as <- <-; repeat split; reflexivity.
Qed.
Print Assumptions C102_networks.

(** An accepted command line with the number [n] adds [n] checkpoints (none if it is
    negative) to what earlier runs of the same model left. *)
Theorem C102_trains : forall W O (epoch : agent * option nat * Z -> nat -> W * O -> W * O) init fresh ls prog name iters n net others d k,
  In name offered -> spells iters n -> network_of name = Ok net -> listing ls -> no_lookalike name others ->
  history (epoch net) fresh ls name others d -> map fst d = map fst others ++ map (ckpt name) (seq 0 k) ->
  exists ds, main epoch init fresh ls [prog; name; iters] d = Ok ds /\
    map fst (last ds d) = map fst others ++ map (ckpt name) (seq 0 (k + Z.to_nat n)).
Proof.
  intros W O epoch init fresh ls prog name iters n net others d k I S N Ls No H E.
  assert (L : launch [prog; name; iters] = Ok (name, n)) by (apply C102_accepted; eauto 10).
  unfold main. rewrite L. cbn [bind]. rewrite N. cbn [bind]. now apply (C57_progress _ _ _ _ _ _ others).
Qed.
Print Assumptions C102_trains.

Example C102_example : spells " -1_000 " (-1000) /\ launch ["supervised_learning.py"; "transformer_conv"; "+1_0"]%string = Ok ("transformer_conv"%string, 10) /\
  launch ["supervised_learning.py"; "transformer_conv"; "1__0"]%string = Err ValueError /\
  launch ["supervised_learning.py"; "conv"; "10"]%string = Err AssertionError /\
  exists ds, main (fun _ (i : nat) (s : Z * Z) => (fst s + 1, snd s)) (fun _ => 0) 0 (fun l => l) ["p"; "transformer"; "2"]%string [] = Ok ds /\
    last ds [] = [(ckpt "transformer" 0, Full 1); (ckpt "transformer" 1, Full 2)].
Proof.
  split; [apply read_int_spec; reflexivity|]. do 3 (split; [reflexivity|]). eexists. split; vm_compute; reflexivity.
Qed.
