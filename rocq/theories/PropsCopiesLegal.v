(** C114, continued: which copies of the tiles are in play does not decide whether a round is accepted.
    The vocabulary is in SpecCopies.v and SpecLegal.v, proofs are in CopiesAccepted.v. *)
From Coq Require Import ZArith List Bool String Lia PeanoNat Permutation.
From Verif Require Import Base Constants Naki Decision GameInfo Agari Process SpecMeld SpecTokens SpecRound SpecTensor Tensor SpecCopies SpecLegal
  RoundExamples RoundLemmas RoundFacts RoundSplit RoundProgress RoundLegal RoundExact CopiesLemmas CopiesAccepted PropsRound PropsTensor PropsCopies PropsLegal PropsLegalExact.
Import ListNotations.
Open Scope Z_scope.

(** Without restriction: of two rounds that differ only in which copies are dealt, drawn, discarded, called and
    turned up either both are accepted or none is. *)
Theorem C114_accepted : forall f L go e e' evs evs' pls pls' results, renaming f -> libs_answer L -> readable_deal e -> readable_deal e' ->
  same_deal_but_copies f e e' -> events_of evs pls -> events_of evs' pls' -> Forall meaningful pls -> Forall2 (renamed_freely f) pls pls' ->
  results <> [] -> Forall result_event results ->
  (exists out, process_round L go (e :: evs ++ results) = Ok out) <-> (exists out, process_round L go (e' :: evs' ++ results) = Ok out).
Proof. intros f L go e e' evs evs' pls pls' results F An. exact (copies_accepted f L go e e' evs evs' pls pls' results F An). Qed.
Print Assumptions C114_accepted.

Lemma renamed_free f a b : renamed f a b -> renamed_freely f a b.
Proof.
  destruct a; cbn [renamed renamed_freely]; try tauto. intros (R & -> & Fx & _). exists code. do 5 (split; [easy|]). apply Forall_app in Fx as [A B].
  assert (Fix : forall l, Forall (fun x => f x = x) l -> map f l = l) by (induction 1 as [|x l E _ IH]; cbn [map]; congruence).
  rewrite (Fix _ A), (Fix _ B). split; reflexivity.
Qed.
Lemma round_plays e evs pls results : events_of evs pls -> Forall result_event results -> plays_of_round (e :: evs ++ results) pls.
Proof.
  intros Ev Fr. exists e, evs, results. split; [reflexivity|]. split; [|split; [exact Fr|exact Ev]]. apply Forall_forall. intros x I R. apply in_map with (f := play_of) in I. rewrite Ev in I.
  apply in_map_iff in I as (a & E & _). symmetry in E. apply play_not_result in E. apply result_iff in R. congruence.
Qed.
(** If the tiles of calls keep their numbers (see [renamed]), the copy of an accepted round is accepted too and
    has the same tokens and the same samples. *)
Theorem C114_copied_round_partial : forall f L go e e' evs evs' pls pls' results half tokens a, renaming f -> libs_answer L -> blind_to_copies f (l_agari L) ->
  readable_deal e -> readable_deal e' -> same_deal_but_copies f e e' -> events_of evs pls -> events_of evs' pls' -> Forall meaningful pls -> Forall2 (renamed f) pls pls' ->
  results <> [] -> Forall result_event results -> process_round L go (e :: evs ++ results) = Ok (half, tokens) ->
  exists half', process_round L go (e' :: evs' ++ results) = Ok (half', tokens) /\ build_tensors a half' tokens = build_tensors a half tokens.
Proof.
  intros f L go e e' evs evs' pls pls' results half tokens a F An B Re Re' D Ev Ev' M S Nr Fr H.
  assert (S' : Forall2 (renamed_freely f) pls pls') by (clear - S; induction S; constructor; [now apply renamed_free|assumption]).
  destruct (proj1 (C114_accepted f L go e e' evs evs' pls pls' results F An Re Re' D Ev Ev' M S' Nr Fr) (ex_intro _ _ H)) as ([half' tokens'] & H').
  destruct (C114_copies_partial f L go e e' _ _ half half' tokens tokens' pls pls' a F B D (round_plays _ _ _ _ Ev Fr) (round_plays _ _ _ _ Ev' Fr) S H H') as [-> E].
  exists half'. split; [exact H'|now symmetry].
Qed.
Print Assumptions C114_copied_round_partial.

(** The two rounds of [C114_refuted_label], in which different copies of 9m are called, meet the hypotheses of
    [C114_accepted]; the round and its copy of [C114_example] meet those of [C114_copied_round_partial]. *)
Lemma fair_readable e : fair_deal e -> readable_deal e.
Proof.
  intros (A & B & C & D & E & _). repeat (split; [assumption|]). intros p Hp. destruct (E p Hp) as (tiles & T & _ & V). eauto.
Qed.
Definition plays9_events (l : list event) : list event := firstn 12 (tl l).
Example C114_accepted_example : let e := hd drawn_game claim_low in let e' := hd drawn_game claim_high in
  claim_low = e :: plays9_events claim_low ++ [drawn_game] /\ claim_high = e' :: plays9_events claim_high ++ [drawn_game] /\
  renaming (swap 32 34) /\ libs_answer ex_libs /\ readable_deal e /\ readable_deal e' /\ same_deal_but_copies (swap 32 34) e e' /\
  events_of (plays9_events claim_low) (plays9 32 12395) /\ events_of (plays9_events claim_high) (plays9 34 13419) /\ Forall meaningful (plays9 32 12395) /\
  Forall2 (renamed_freely (swap 32 34)) (plays9 32 12395) (plays9 34 13419) /\ Forall result_event [drawn_game] /\
  exists out, process_round ex_libs 169 claim_low = Ok out.
Proof.
  cbv zeta. split; [reflexivity|]. split; [reflexivity|]. split; [apply swap_renaming; try reflexivity; unfold valid_id; lia|]. split; [exact ex_libs_answer|].
  split; [apply fair_readable, fair_dealb_ok; vm_compute; reflexivity|]. split; [apply fair_readable, fair_dealb_ok; vm_compute; reflexivity|]. split.
  { constructor; try (vm_compute; reflexivity); [split; [vm_compute; split; congruence|vm_compute; reflexivity]|].
    intros p Hp. do 4 (destruct p as [|p]; [apply same_tiles; vm_compute; reflexivity|]). lia. }
  split; [vm_compute; reflexivity|]. split; [vm_compute; reflexivity|]. split; [apply meaningfulb_ok; vm_compute; reflexivity|]. split.
  { unfold plays9. repeat match goal with |- Forall2 _ (_ :: _) _ => constructor | |- Forall2 _ [] _ => constructor end;
      try (cbn [renamed_freely]; split; [unfold valid_id; lia|vm_compute; reflexivity]).
    exists 13419. split; [reflexivity|]. split; [vm_compute; split; reflexivity|]. split; [vm_compute; split; reflexivity|]. split; [vm_compute; reflexivity|]. split; [vm_compute; reflexivity|].
    split; [apply same_tiles; vm_compute; reflexivity|vm_compute; reflexivity]. }
  split; [constructor; [right; reflexivity|constructor]|]. eexists. vm_compute. reflexivity.
Qed.
