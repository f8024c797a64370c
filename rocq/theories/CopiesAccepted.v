(** Which copies of the tiles are in play does not matter for whether a round is accepted. *)
From Coq Require Import ZArith List Bool String Lia PeanoNat Permutation.
From Verif Require Import Base Constants Naki Decision GameInfo Agari Process SpecMeld SpecTokens SpecRound SpecCopies SpecLegal
  RoundLemmas RoundTiles RoundBook NakiLemmas NakiLemmas2 CopiesLemmas RoundProgress RoundLegal RoundExact.
Import ListNotations.
Open Scope Z_scope.

Section Accepted.
  Variable f : Z -> Z.
  Hypothesis F : renaming f.

  (** The second list holds the renamed tiles of the first. *)
  Definition moved (l l' : list Z) : Prop := Forall valid_id l /\ Permutation l' (map f l).
  Lemma moved_nil : moved [] [].
  Proof. split; constructor. Qed.
  Lemma moved_app a a' b b' : moved a a' -> moved b b' -> moved (a ++ b) (a' ++ b').
  Proof. intros [A1 A2] [B1 B2]. split; [apply Forall_app; auto|]. rewrite map_app. now apply Permutation_app. Qed.
  Lemma moved_one x : valid_id x -> moved [tid x] [tid (f x)].
  Proof. intros V. rewrite (tid_valid x V), (tid_valid (f x)) by exact (rn_valid f F x V). split; [repeat constructor; exact (proj1 V) || exact (proj2 V)|reflexivity]. Qed.
  Lemma moved_num k l l' : moved l l' -> num k l' = num k l.
  Proof. intros [V P]. rewrite (CopiesLemmas.num_perm k _ _ P). now apply copy_num. Qed.
  Lemma moved_length l l' : moved l l' -> List.length l' = List.length l.
  Proof. intros [_ P]. apply Permutation_length in P. now rewrite map_length in P. Qed.
  Lemma moved_times t l l' : valid_id t -> moved l l' -> times (f t) l' = times t l.
  Proof.
    intros Vt [V P]. unfold times. rewrite (proj1 (Permutation_count_occ Z.eq_dec _ _) P (f t)). clear P. induction V as [|x l Vx _ IH]; [reflexivity|]. cbn [map count_occ]. rewrite IH.
    destruct (Z.eq_dec (f x) (f t)) as [E|E], (Z.eq_dec x t) as [E'|E']; try reflexivity; [apply (rn_inj f F) in E; [contradiction|assumption..]|congruence].
  Qed.
  Lemma moved_nodup l l' : moved l l' -> NoDup l' <-> NoDup l.
  Proof.
    intros [V P]. assert (Q : NoDup l' <-> NoDup (map f l)) by (split; apply Permutation_NoDup; [exact P|now symmetry]). rewrite Q. split; [apply NoDup_map_inv|].
    apply nodup_map_in. rewrite Forall_forall in V. intros x y Ix Iy. apply (rn_inj f F); auto.
  Qed.
  Lemma moved_map_tid l l' : Forall valid_id l -> Permutation l' (map f l) -> moved (map tid l) (map tid l').
  Proof.
    intros V P. assert (V' : Forall valid_id l'). { eapply Permutation_Forall; [symmetry; exact P|]. apply Forall_map. eapply Forall_impl; [|exact V]. intros x. apply (rn_valid f F). }
    rewrite (map_tid_valid _ V), (map_tid_valid _ V'). split; assumption.
  Qed.
  Lemma shown_valid c : in_range c -> Forall valid_id (shown_by c).
  Proof. intros R. pose proof (call_tiles c R) as V. now apply Forall_app in V as [V _]. Qed.

  (** Tiles picked out of the plays *)
  Lemma moved_plays (g : play -> list Z) pls pls' : (forall a b, renamed_freely f a b -> moved (g a) (g b)) -> Forall2 (renamed_freely f) pls pls' -> moved (flat_map g pls) (flat_map g pls').
  Proof. intros G. induction 1; cbn [flat_map]; [exact moved_nil|]. apply moved_app; auto. Qed.
  Ltac picks := intros a b R; destruct a; cbn [renamed_freely] in R;
    [destruct R as [V ->]|destruct R as [V ->]|destruct R as (c' & -> & R1 & R2 & _ & _ & P & _)|subst b|subst b|destruct R as [V ->]];
    try exact moved_nil; repeat (match goal with |- context [if ?b then _ else _] => destruct b end); try exact moved_nil; try (now apply moved_one); try (apply moved_map_tid; [now apply shown_valid|eassumption]).
  Variables (pls pls' : list play).
  Hypothesis S : Forall2 (renamed_freely f) pls pls'.
  Lemma moved_drawn p : moved (drawn p pls) (drawn p pls').
  Proof. apply moved_plays; [picks|exact S]. Qed.
  Lemma moved_discarded p : moved (discarded p pls) (discarded p pls').
  Proof. apply moved_plays; [picks|exact S]. Qed.
  Lemma moved_shown p : moved (shown p pls) (shown p pls').
  Proof. apply moved_plays; [picks|exact S]. Qed.
  Lemma moved_others p : moved (discards_of_others p pls) (discards_of_others p pls').
  Proof. apply moved_plays; [picks|exact S]. Qed.
  Lemma moved_shown_others p : moved (shown_by_others p pls) (shown_by_others p pls').
  Proof. apply moved_plays; [picks|exact S]. Qed.
  Lemma moved_all : moved (all_drawn pls) (all_drawn pls') /\ moved (indicators pls) (indicators pls').
  Proof. split; (apply moved_plays; [picks|exact S]). Qed.

  Definition move_st (st : standing) : standing := match st with Threw d t => Threw d (f t) | _ => st end.
  Lemma moved_stands : stands pls' = move_st (stands pls).
  Proof.
    unfold stands. change (fold_left after pls' (move_st Waiting) = move_st (fold_left after pls Waiting)). generalize Waiting. induction S as [|a b l l' R S' IH]; intros st; [reflexivity|]. cbn [fold_left]. rewrite <- (IH S'). f_equal. clear IH.
    destruct a as [w t|w t|w c|w|w|t]; cbn [renamed_freely] in R;
      [destruct R as [V ->]|destruct R as [V ->]|destruct R as (c' & -> & R1 & R2 & K & _)|subst b|subst b|destruct R as [V ->]]; cbn [after move_st]; try reflexivity.
    rewrite K. destruct (spec_kind c) as [[]|]; reflexivity.
  Qed.

  Variables (e e' : event).
  Hypothesis D : same_deal_but_copies f e e'.
  Lemma moved_dealt p : (p < 4)%nat -> moved (dealt e p) (dealt e' p).
  Proof. intros Hp. split; [apply dealt_valid|exact (dc_hands f e e' D p Hp)]. Qed.
  Lemma moved_all_dealt : moved (all_dealt e) (all_dealt e').
  Proof. unfold all_dealt. cbn [seq flat_map]. repeat apply moved_app; try apply moved_dealt; try lia. exact moved_nil. Qed.
  Lemma moved_indicator : moved [first_indicator e] [first_indicator e'].
  Proof. unfold first_indicator. destruct (dc_indicator f e e' D) as [V ->]. now apply moved_one. Qed.

  Lemma moved_has p t : 0 <= p < 4 -> valid_id t -> has_tile e' pls' p (f t) <-> has_tile e pls p t.
  Proof.
    intros Hp V. unfold has_tile. rewrite (moved_times t (discarded p pls ++ shown p pls)) by (assumption || (apply moved_app; [apply moved_discarded|apply moved_shown])).
    rewrite (moved_times t (dealt e (Z.to_nat p) ++ drawn p pls)) by (assumption || (apply moved_app; [apply moved_dealt; lia|apply moved_drawn])). reflexivity.
  Qed.
  Lemma moved_size p : hand_size pls' p = hand_size pls p.
  Proof. unfold hand_size. rewrite (moved_length _ _ (moved_drawn p)), (moved_length _ _ (moved_discarded p)), (moved_length _ _ (moved_shown p)). reflexivity. Qed.
  Lemma moved_enough : enough_tiles e' pls' <-> enough_tiles e pls.
  Proof.
    unfold enough_tiles. destruct moved_all as (A & I). split; intros H k Hk; specialize (H k Hk); destruct H as [H1 H2];
      rewrite (moved_num k _ _ moved_all_dealt), (moved_num k _ _ A), (moved_num k _ _ moved_indicator), (moved_num k _ _ I) in *; (split; [exact H1|]);
      intros p Hp; specialize (H2 p Hp); rewrite (moved_num k _ _ (moved_app _ _ _ _ (moved_dealt (Z.to_nat p) ltac:(lia)) (moved_drawn p))), (moved_num k _ _ (moved_others p)), (moved_num k _ _ (moved_shown_others p)) in *;
      rewrite ?(moved_num k _ _ moved_indicator), ?(moved_num k _ _ I) in *; exact H2.
  Qed.
  Lemma moved_full : full_hands e' <-> full_hands e.
  Proof.
    unfold full_hands. split; intros H p Hp; specialize (H p Hp); rewrite (moved_length _ _ (moved_dealt p Hp)), (moved_nodup _ _ (moved_dealt p Hp)) in *; exact H.
  Qed.
  Lemma moved_checked a b : renamed_freely f a b -> meaningful a -> checked e' pls' b <-> checked e pls a.
  Proof.
    pose proof moved_stands as St. intros R M.
    assert (Q1 : (exists u, stands pls' = Drew u) <-> exists u, stands pls = Drew u) by (rewrite St; destruct (stands pls); cbn [move_st]; split; intros (u & E); try discriminate E; eauto).
    assert (Q2 : (exists d t, stands pls' = Threw d t) <-> exists d t, stands pls = Threw d t) by (rewrite St; destruct (stands pls); cbn [move_st]; split; intros (u & x & E); try discriminate E; eauto).
    assert (Q3 : stands pls' = Waiting <-> stands pls = Waiting) by (rewrite St; destruct (stands pls); cbn [move_st]; split; intros E; try discriminate E; reflexivity).
    assert (Q4 : (exists u, stands pls' = Drew u \/ stands pls' = Called u) <-> exists u, stands pls = Drew u \/ stands pls = Called u) by (rewrite St; destruct (stands pls); cbn [move_st]; split; intros (u & [E|E]); try discriminate E; eauto).
    destruct a as [w t|w t|w c|w|w|t]; cbn [renamed_freely meaningful] in *.
    - destruct R as [V ->]. cbn [checked]. rewrite moved_size, Q3. pose proof (moved_has w t (proj1 M) V). tauto.
    - destruct R as [V ->]. cbn [checked]. rewrite moved_size. pose proof (moved_has w t (proj1 M) V). tauto.
    - destruct R as (c' & -> & R1 & R2 & K & _ & P & _). cbn [checked]. rewrite K.
      assert (H : Forall (has_tile e' pls' w) (shown_by c') <-> Forall (has_tile e pls w) (shown_by c)).
      { pose proof (shown_valid c R1) as V. rewrite Forall_forall in V. rewrite !Forall_forall. split; intros H x Ix.
        - apply (moved_has w x); [tauto|now apply V|]. apply H. apply (Permutation_in _ (Permutation_sym P)). now apply in_map.
        - apply (Permutation_in _ P) in Ix. apply in_map_iff in Ix as (y & <- & Iy). apply moved_has; [tauto|now apply V|now apply H]. }
      destruct (spec_kind c) as [[]|]; tauto.
    - subst b. cbn [checked]. exact Q1.
    - subst b. cbn [checked]. exact Q2.
    - destruct R as [V ->]. reflexivity.
  Qed.
End Accepted.

Lemma moved_meaningful f a b : renaming f -> renamed_freely f a b -> meaningful a -> meaningful b.
Proof.
  intros F R M. destruct a; cbn [renamed_freely meaningful] in *;
    [destruct R as [V ->]|destruct R as [V ->]|destruct R as (c' & -> & R1 & R2 & _)|subst b|subst b|destruct R as [V ->]]; cbn [meaningful]; try pose proof (rn_valid f F _ V); tauto.
Qed.
Lemma copies_checks f e e' pls pls' : renaming f -> same_deal_but_copies f e e' -> Forall2 (renamed_freely f) pls pls' -> Forall meaningful pls ->
  passes_checks e' pls' <-> passes_checks e pls.
Proof.
  intros F D S M. unfold passes_checks. split; intros H before a rest E.
  - subst pls. apply Forall2_app_inv_l in S as (b' & l' & S1 & S2 & E'). inversion S2 as [|? b ? r' R S3]. subst. apply Forall_app in M as [_ M]. inversion M. subst.
    apply (moved_checked f F _ _ S1 _ _ D a b R); [assumption|]. exact (H b' b r' eq_refl).
  - subst pls'. apply Forall2_app_inv_r in S as (b' & l' & S1 & S2 & E'). inversion S2 as [|b ? r' ? R S3]. subst. apply Forall_app in M as [_ M]. inversion M. subst.
    apply (moved_checked f F _ _ S1 _ _ D b a R); [assumption|]. exact (H b' b r' eq_refl).
Qed.
Lemma copies_accepted f L go e e' evs evs' pls pls' results : renaming f -> answers L -> readable_deal e -> readable_deal e' -> same_deal_but_copies f e e' ->
  events_of evs pls -> events_of evs' pls' -> Forall meaningful pls -> Forall2 (renamed_freely f) pls pls' -> results <> [] -> Forall result_event results ->
  okr (process_round L go (e :: evs ++ results)) <-> okr (process_round L go (e' :: evs' ++ results)).
Proof.
  intros F An Re Re' D Ev Ev' M S Nr Fr. assert (M' : Forall meaningful pls').
  { clear - F M S. induction S as [|a b l l' R _ IH]; [constructor|]. inversion M. subst. constructor; [eapply moved_meaningful; eassumption|auto]. }
  rewrite (exact_deal L go e evs pls results) by assumption. rewrite (exact_deal L go e' evs' pls' results) by assumption.
  rewrite (moved_full f F e e' D), (copies_checks f e e' pls pls' F D S M), (moved_enough f F pls pls' S e e' D). reflexivity.
Qed.
