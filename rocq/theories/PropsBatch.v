(** C83: a batch holds the samples of all its rounds. *)
From Coq Require Import ZArith List Bool Lia.
From Verif Require Import Base Constants Naki Decision Process VecLemmas RoundExamples Tensor.
Import ListNotations.
Open Scope Z_scope.

(** The rounds of a batch: half-turns and tokens of the same round *)
Inductive rounds_of : list game -> list (list (halfturn sview) * list Z) -> Prop :=
| no_games : rounds_of [] []
| next_game g games rs : rounds_of games rs -> rounds_of (([], g) :: games) rs
| next_round h hs t ts games rs : rounds_of ((hs, ts) :: games) rs -> rounds_of ((h :: hs, t :: ts) :: games) ((h, t) :: rs).

Lemma rounds_flat games rs : rounds_of games rs -> rs = List.concat (map (fun g => combine (fst g) (snd g)) games).
Proof.
  induction 1 as [|g games rs _ IH|h hs t ts games rs _ IH]; [reflexivity|exact IH|]. rewrite IH. reflexivity.
Qed.

(** ** C83 *)
(** The rows of a batch are the rows of its rounds, one round after another: none is
    lost, repeated, reordered or built with the tokens of another round. *)
Theorem C83_rows : forall a games rs t, rounds_of games rs -> prepare_batches a games = Ok t ->
  exists parts, Forall2 (fun r p => build_tensors a (fst r) (snd r) = Ok p) rs parts /\
    t_during t = List.concat (map t_during parts) /\
    t_discard t = List.concat (map t_discard parts) /\
    t_post t = List.concat (map t_post parts).
Proof.
  intros a games rs t R H. rewrite (rounds_flat games rs R). unfold prepare_batches in H. apply bind_ok in H as (ts & M & H).
  exists (List.concat ts). split.
  - apply mapM_ok in M. clear - M. induction M as [|g y games ts E _ IH]; [constructor|]. cbn [map List.concat].
    apply Forall2_app; [|exact IH]. apply mapM_ok in E. exact E.
  - unfold stack_batches in H. destruct (List.concat ts) as [|x l]; [|injection H as <-; auto].
    destruct a; try discriminate H. injection H as <-. auto.
Qed.
Print Assumptions C83_rows.

Lemma rounds_exist : forall games : list game, Forall (fun g => List.length (fst g) = List.length (snd g)) games ->
  exists rs, rounds_of games rs.
Proof.
  induction games as [|[hs ts] games IH]; intros F; [exists []; constructor|].
  pose proof (Forall_inv F) as E. cbn [fst snd] in E. apply Forall_inv_tail in F. destruct (IH F) as (rs & R). clear F IH.
  revert ts E. induction hs as [|h hs IHh]; intros ts E.
  - exists rs. now constructor.
  - destruct ts as [|t ts]; [discriminate E|]. injection E as E. destruct (IHh ts E) as (rs' & R'). exists ((h, t) :: rs'). now constructor.
Qed.

(** Batches of processed games have such a list of rounds: as many as the games have. *)
Theorem C83_games : forall (games : list game), Forall (fun g => exists L root, process L root = Ok g) games ->
  exists rs, rounds_of games rs /\ List.length rs = list_sum (map (fun g => List.length (fst g)) games).
Proof.
  intros games F.
  assert (E : Forall (fun g : game => List.length (fst g) = List.length (snd g)) games).
  { eapply Forall_impl; [|exact F]. intros g (L & root & H). unfold process in H.
    apply bind_ok in H as ([go rounds] & _ & H). do 4 (apply bind_ok in H as (? & _ & H)). apply bind_ok in H as (rs & _ & H).
    injection H as <-. cbn [fst snd]. now rewrite !map_length. }
  destruct (rounds_exist games E) as (rs & R). exists rs. split; [exact R|]. clear F.
  rewrite (rounds_flat games rs R). clear R. induction E as [|g games Eg _ IH]; [reflexivity|]. cbn [map List.concat].
  rewrite app_length, combine_length, <- Eg, Nat.min_id, IH. reflexivity.
Qed.
Print Assumptions C83_games.

(** two copies of a round: twice the rows *)
Definition round_pair : res (nat * nat * nat * (nat * nat * nat)) :=
  '(h, tk) <- process_round ex_libs 169 small_round ;;
  one <- prepare_batches ORDERED [([h], [tk])] ;;
  two <- prepare_batches ORDERED [([h; h], [tk; tk])] ;;
  Ok (List.length (t_during one), List.length (t_discard one), List.length (t_post one),
      (List.length (t_during two), List.length (t_discard two), List.length (t_post two))).
Example C83_example : round_pair = Ok (5, 7, 2, (10, 14, 4))%nat.
Proof. vm_compute. reflexivity. Qed.
