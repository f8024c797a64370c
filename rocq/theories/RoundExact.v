(** Exactly which rounds are processed. *)
From Coq Require Import ZArith List Bool String Ascii Lia PeanoNat Permutation.
From Verif Require Import Base Constants Naki Decision Tokens GameInfo Agari Process VecLemmas
  SpecMeld SpecTokens SpecRound SpecDecision SpecTurn SpecLabels SpecLegal NakiProofs NakiLemmas NakiCore NakiLemmas2 TokensLemmas DecisionProofs DecisionLemmas
  RoundLemmas RoundInv RoundTiles RoundInit RoundBook RoundFlags RoundSplit RoundHalf RoundFacts RoundQuery RoundCount RoundLabels RoundMelds RoundProgress RoundLegal.
Import ListNotations.
Open Scope Z_scope.

(** ** The hand *)
Lemma has_iff e0 pls p hl t : Permutation (dealt e0 (Z.to_nat p) ++ drawn p pls) (discarded p pls ++ shown p pls ++ hl) -> (has_tile e0 pls p t <-> In t hl).
Proof.
  intros P. unfold has_tile, times. rewrite (proj1 (Permutation_count_occ Z.eq_dec _ _) P t). rewrite !count_occ_app. rewrite (count_occ_In Z.eq_dec hl t). lia.
Qed.
Lemma exact_hand L go e0 evs n s pls p : runs L go e0 evs n s pls -> 0 <= p < 4 -> exists hl,
  Forall (fun x => 0 <= x < 136) hl /\ (forall t, has_tile e0 pls p t <-> In t hl) /\
  (forall x, 0 <= x < 136 -> (vget (row (s_hands s) (Z.to_nat p)) (Z.to_nat x) = 1 <-> In x hl) /\ (vget (row (s_hands s) (Z.to_nat p)) (Z.to_nat x) = 0 <-> ~ In x hl)) /\
  (forall k, (k < 37)%nat -> vget (row (s_ht s) (Z.to_nat p)) k = num k hl) /\ Z.of_nat (List.length hl) = hand_size pls p.
Proof.
  intros R Hp. destruct (hands_exact _ _ _ _ _ _ _ p R Hp) as (hl & _ & F & P & V & K & _). exists hl. split; [exact F|].
  split; [intros t; exact (has_iff _ _ _ _ _ P)|]. split.
  { intros x Hx. destruct (V x Hx) as [V1 V2]. unfold vec in *. destruct (in_dec Z.eq_dec x hl) as [J|J]; [specialize (V1 J); rewrite V1|specialize (V2 J); rewrite V2]; (split; split; intros; (contradiction || lia || assumption || reflexivity || (exfalso; lia))). }
  split; [intros k Hk; exact (proj1 (K k Hk))|].
  apply Permutation_length in P. rewrite !app_length in P. destruct (runs_plays _ _ _ _ _ _ _ R) as (s0 & In0 & _).
  destruct (in_deal _ _ In0 (Z.to_nat p) ltac:(lia)) as (L13 & _). unfold hand_size. lia.
Qed.

(** ** Where the event loop stands *)
Definition phase2 (st : standing) (s : rstate) : Prop := phase_ok st s /\ (st = Waiting -> s_cur s = false).
Lemma claims_one c : in_range c -> spec_kind c = Some Chi \/ spec_kind c = Some Pon -> exists x, hd_error (claimed_by c) = Some x.
Proof.
  intros R K. assert (Hk : spec_kind c <> None) by (destruct K as [-> | ->]; discriminate). destruct (proj1 (classify c) Hk) as (_ & (ex & a) & E).
  destruct (meld_possible c ex a R E) as (k & Ek & _ & _ & P). unfold claimed_by. rewrite E. destruct a as [a|]; [exists a; reflexivity|].
  exfalso. destruct K as [K|K]; rewrite K in Ek; injection Ek as <-; destruct P as [P _]; congruence.
Qed.
Lemma phase2_step L n e0 h a s s' : wf s -> meaningful a -> seated a -> checked e0 h a -> phase2 (stands h) s -> astep L n s a = Ok s' -> phase2 (stands (h ++ [a])) s'.
Proof.
  intros W Me S A [I J] E. rewrite stands_snoc. pose proof (astep_apply _ _ _ _ _ W S E) as [_ Es].
  apply strip_fields in Es as (_ & _ & _ & _ & _ & _ & _ & _ & _ & _ & _ & _ & _ & _ & _ & _ & Ea). rewrite ap_acquired in Ea.
  pose proof (astep_cur _ _ _ _ _ W S E) as Cu. apply astep_half in E; [|exact W|exact S].
  destruct a as [w t|w t|w c|w|w|t]; cbn [after].
  - destruct E as (so & ds & _ & Eh & Eo & _). split; [|discriminate]. cbn [phase_ok]. rewrite cur_during_top, Cu, Ea, Eo. unfold top_during. rewrite Eh. split; [discriminate|]. split; [reflexivity|discriminate].
  - destruct E as (so & ds & tok & _ & Eh & _). split; [|discriminate]. cbn [phase_ok]. rewrite cur_post_top, Cu, Ea. unfold top_post. rewrite Eh. split; reflexivity.
  - destruct E as (so & hs & tok & _ & _ & _ & Eo & _). destruct Cu as [_ Cu]. destruct Me as (_ & R). rewrite (proj2 (RoundLegal.kinds c R)) in Ea. split; [|intros _; exact Cu].
    pose proof (claims_one c R) as K.
    destruct (spec_kind c) as [[]|]; cbn [phase_ok]; try exact Ea;
      (destruct K as (x & K); [tauto|]; rewrite K in Ea; rewrite Ea, Eo; (split; [discriminate|]; split; [exact Cu|discriminate])).
  - destruct E as ([M _] & Eo & _). destruct A as (u & A). rewrite A in *. split; [|discriminate]. cbn [phase_ok] in *. rewrite cur_during_top in *. unfold top_during in *. rewrite Ea, Eo, M, (proj2 Cu). rewrite (proj1 Cu) in I. exact I.
  - destruct E as ([M _] & Eo & _). destruct A as (d & t & A). rewrite A in *. split; [|discriminate]. cbn [phase_ok] in *. rewrite cur_post_top in *. unfold top_post in *. rewrite Ea, M, (proj2 Cu). rewrite (proj1 Cu) in I. exact I.
  - destruct E as ([M _] & Eo & _). split; [|rewrite Cu; exact J]. destruct (stands h); cbn [phase_ok] in *; rewrite ?cur_post_top, ?cur_during_top in *; unfold top_post, top_during in *; rewrite ?Ea, ?Eo, ?M, ?Cu; exact I.
Qed.
Lemma phase2_during st s : phase2 st s -> cur_during s = true <-> exists u, st = Drew u.
Proof.
  intros [I J]. split; [|intros (u & ->); cbn in I; tauto]. intros C. destruct st as [|u|u|u t]; cbn [phase_ok] in I; rewrite ?cur_during_top, ?cur_post_top in *; [|eauto| |]; exfalso.
  - rewrite (J eq_refl) in C. discriminate C.
  - destruct I as (_ & I & _). rewrite I in C. discriminate C.
  - destruct I as (_ & I). unfold top_during, top_post in *. destruct (map shape_of (s_half s)) as [|[] ?]; rewrite ?andb_false_r in *; discriminate.
Qed.
Lemma phase2_post st s : phase2 st s -> cur_post s = true <-> exists d t, st = Threw d t.
Proof.
  intros [I J]. split; [|intros (d & t & ->); cbn in I; tauto]. intros C. destruct st as [|u|u|u t]; cbn [phase_ok] in I; rewrite ?cur_during_top, ?cur_post_top in *; [| | |eauto]; exfalso.
  - rewrite (J eq_refl) in C. discriminate C.
  - destruct I as (_ & I & _). unfold top_during, top_post in *. destruct (map shape_of (s_half s)) as [|[] ?]; rewrite ?andb_false_r in *; discriminate.
  - destruct I as (_ & I & _). rewrite I in C. discriminate C.
Qed.
Lemma phase2_none st s : phase2 st s -> s_acquired s = None <-> (st = Waiting \/ exists d x, st = Threw d x).
Proof.
  intros [I _]. destruct st as [|u|u|u t]; cbn [phase_ok] in I; split; try tauto; try (intros [Q|(d & x & Q)]; discriminate Q); try (right; eauto). 
Qed.
Lemma exposable_iff p ex : forall h, List.length h = 136%nat -> NoDup ex -> Forall (fun x => 0 <= x < 136) ex -> exposable p h ex -> Forall (fun x => vget h (Z.to_nat x) = 1) ex.
Proof.
  induction ex as [|e ex IH]; intros h Lh N F X; [constructor|]. inversion F as [|? ? Re Fe]. inversion N as [|? ? Ni Ne]. subst. cbn [exposable] in X. destruct X as [X1 X2].
  assert (Et : tnat e = Z.to_nat e) by (unfold tnat; now rewrite tid_id by lia). rewrite Et in *. constructor; [exact X1|].
  apply IH in X2; [|unfold vadd; now rewrite length_upd|exact Ne|exact Fe]. rewrite Forall_forall in *. intros x Ix. specialize (X2 x Ix). specialize (Fe x Ix). cbn beta in X2. rewrite vget_vadd in X2 by lia.
  destruct (Nat.eqb_spec (Z.to_nat e) (Z.to_nat x)) as [Q|Q]; [|lia]. exfalso. apply Ni. replace e with x by lia. exact Ix.
Qed.

(** ** The checks of the event loop, in terms of the plays *)
Lemma guard_iff L go e0 evs n s pls a : runs L go e0 evs n s pls -> List.length (initial_scores e0) = 4%nat -> phase2 (stands pls) s ->
  wf s -> meaningful a -> (guard a s <-> checked e0 pls a).
Proof.
  intros R Sc I W Me. destruct W as (Lh & Fh & Lt & Ft & _). pose proof (phase2_during _ _ I) as PD. pose proof (phase2_post _ _ I) as PP. pose proof (phase2_none _ _ I) as PN.
  destruct a as [w t|w t|w c|w|w|t]; cbn [guard checked meaningful] in *.
  - destruct Me as [Hw V]. unfold valid_id in V. destruct (exact_hand _ _ _ _ _ _ _ w R Hw) as (hl & F & Hi & Hv & Ht & Hs).
    rewrite ap_ht. rewrite row_upd by lia. rewrite Nat.eqb_refl. rewrite (sum_hand _ hl) by (assumption || (apply (RoundLegal.row_length _ 37); assumption || lia)).
    unfold tnat. rewrite tid_id by lia. rewrite Hs, (proj2 (Hv t V)), (Hi t), PN.
    assert (M : (hand_size pls w + 1) mod 3 = 2 <-> hand_size pls w mod 3 = 1) by (Z.div_mod_to_equations; lia). rewrite M. split; intros Q; intuition lia.
  - destruct Me as [Hw V]. unfold valid_id in V. destruct (exact_hand _ _ _ _ _ _ _ w R Hw) as (hl & F & Hi & Hv & Ht & Hs).
    rewrite ap_ht. rewrite row_upd by lia. rewrite Nat.eqb_refl. rewrite (sum_hand _ hl) by (assumption || (apply (RoundLegal.row_length _ 37); assumption || lia)).
    unfold tnat. rewrite tid_id by lia. rewrite Hs, (proj1 (Hv t V)), (Hi t).
    assert (M : (hand_size pls w + -1) mod 3 = 1 <-> hand_size pls w mod 3 = 2) by (Z.div_mod_to_equations; lia). rewrite M.
    assert (K : (s_acquired s <> None /\ (s_cur s = false \/ cur_during s = true) /\ s_sobj s <> None) <-> exists u, stands pls = Drew u \/ stands pls = Called u).
    { destruct I as [I _]. split.
      - intros (Q & _). rewrite PN in Q. destruct (stands pls) as [|u|u|u x]; eauto; exfalso; apply Q; eauto.
      - intros (u & [St|St]); rewrite St in I; cbn [phase_ok] in I; tauto. }
    rewrite <- K. split; intros Q; intuition lia.
  - destruct Me as [Hw Rc]. destruct (exact_hand _ _ _ _ _ _ _ w R Hw) as (hl & F & Hi & Hv & Ht & Hs).
    assert (Hk : spec_kind c <> None) by (intros E; unfold in_range in Rc; rewrite E in Rc; exact Rc).
    destruct (proj1 (classify c) Hk) as (Hn & (ex & ac) & He). destruct (meld_possible c ex ac Rc He) as (k & _ & Nd & Fv & _).
    assert (Esh : shown_by c = ex) by (unfold shown_by; now rewrite He).
    assert (Ecl : claimed_by c = match ac with Some a => [a] | None => [] end) by (unfold claimed_by; rewrite He; now destruct ac).
    assert (Nx : NoDup ex) by (destruct ac; cbn [all_tiles] in Nd; [now inversion Nd|exact Nd]).
    assert (Fx : Forall (fun x => 0 <= x < 136) ex). { destruct ac; cbn [all_tiles] in Fv; [inversion Fv as [|? ? _ Fv']; exact Fv'|exact Fv]. }
    assert (Lr : List.length (row (s_hands s) (Z.to_nat w)) = 136%nat) by (apply (RoundLegal.row_length _ 136); assumption || lia).
    assert (X : exposable (Z.to_nat w) (row (s_hands s) (Z.to_nat w)) (shown_by c) <-> Forall (has_tile e0 pls w) (shown_by c)).
    { rewrite Esh. split.
      - intros X. apply exposable_iff in X; [|assumption..]. rewrite Forall_forall in *. intros x Ix. apply Hi, (Hv x (Fx x Ix)), X, Ix.
      - intros X. apply exposable_in; [assumption..|]. rewrite Forall_forall in *. intros x Ix. split; [exact (Fx x Ix)|]. apply (Hv x (Fx x Ix)), Hi, X, Ix. }
    rewrite X, (proj1 (RoundLegal.kinds c Rc)).
    assert (G : (if match spec_kind c with Some Ankan | Some Kakan => true | _ => false end then cur_during s = true else cur_post s = true) <->
                match spec_kind c with Some Ankan | Some Kakan => exists u, stands pls = Drew u | _ => exists d t, stands pls = Threw d t end) by (destruct (spec_kind c) as [[]|]; assumption).
    rewrite G. assert (Fa : Forall (fun x => -136 <= x < 136) (shown_by c ++ claimed_by c)).
    { rewrite Esh, Ecl. rewrite Forall_forall in Fv. apply Forall_forall. intros x Ix. assert (J : In x (all_tiles ex ac)).
      { destruct ac; cbn [all_tiles]; apply in_app_or in Ix as [Ix|Ix]; cbn in *; tauto. }
      specialize (Fv x J). unfold valid_id in Fv. lia. }
    split; [tauto|]. intros [Q1 Q2]. split; [exact Hw|]. split; [exact Hn|]. split; [eauto|]. split; [exact Q2|]. split; [exact Fa|exact Q1].
  - rewrite <- PD. split; [tauto|]. intros C. split; [exact C|]. split; [|lia]. apply PD in C as (u & C). destruct I as [I _]. rewrite C in I. exact (proj1 I).
  - rewrite <- PP. split; [tauto|]. intros C. split; [exact C|]. split; [exact Me|]. rewrite (scores_len _ _ _ _ _ _ _ R), Sc. lia.
  - unfold valid_id in Me. split; [tauto|lia].
Qed.

(** ** The whole round *)
Lemma checks_last e0 h a : passes_checks e0 (h ++ [a]) -> checked e0 h a.
Proof. intros H. exact (H h a [] eq_refl). Qed.
Lemma checks_app e0 a b : passes_checks e0 (a ++ b) -> passes_checks e0 a.
Proof. intros H before x rest E. apply (H before x (rest ++ b)). rewrite E, <- app_assoc. reflexivity. Qed.
Lemma checks_snoc e0 h a : passes_checks e0 h -> checked e0 h a -> passes_checks e0 (h ++ [a]).
Proof.
  intros H A before x rest E. destruct rest as [|y rest _] using rev_ind.
  - apply app_inj_tail in E as [-> ->]. exact A.
  - rewrite app_comm_cons, app_assoc in E. apply app_inj_tail in E as [E _]. exact (H _ _ _ E).
Qed.
Lemma runs_wf L go e0 evs n s pls : runs L go e0 evs n s pls -> wf s.
Proof. intros R. eapply (runs_inv _ _ _ _ _ _ _ (fun _ _ => True)) in R; [apply R|auto..]. Qed.
Lemma meaningful_seat a : meaningful a -> seated a.
Proof. destruct a; cbn; tauto. Qed.
Lemma start_phase go e0 n s0 : init_round go e0 = Ok (n, s0) -> phase2 Waiting s0.
Proof.
  intros E0. pose proof (init_inited _ _ _ _ E0) as In0. destruct (in_rest _ _ In0) as (_ & _ & _ & _ & _ & _ & B & _ & A & _). split; [exact A|]. intros _. exact B.
Qed.

Lemma checked_runs L go e0 n s0 : answers L -> init_round go e0 = Ok (n, s0) -> List.length (initial_scores e0) = 4%nat ->
  forall pls, Forall meaningful pls -> passes_checks e0 pls -> forall evs, events_of evs pls -> exists s, runs L go e0 evs n s pls /\ phase2 (stands pls) s.
Proof.
  intros An E0 Sc. induction pls as [|a h IH] using rev_ind; intros Me B evs H.
  - destruct evs as [|ev evs]; [|discriminate H]. exists s0. split; [exists s0; auto|]. exact (start_phase _ _ _ _ E0).
  - apply Forall_app in Me as [Mh Ma]. inversion Ma as [|? ? Ma' _]. subst. apply events_snoc in H as (evs1 & ev & -> & H & P). destruct (IH Mh (checks_app _ _ _ B) _ H) as (s & R & I).
    pose proof (runs_wf _ _ _ _ _ _ _ R) as W. pose proof (meaningful_seat _ Ma') as Sa. pose proof (checks_last _ _ _ B) as A. pose proof (proj2 (guard_iff _ _ _ _ _ _ _ _ R Sc I W Ma') A) as G.
    destruct (progress L n s a) as (s' & E); try assumption.
    + intros p Hp. destruct (melds_inv_holds _ _ _ _ _ _ _ R (Z.of_nat p) ltac:(lia)) as [_ M]. now rewrite Nat2Z.id in M.
    + destruct a; try exact Logic.I. exact (proj2 Ma').
    + exists s'. split; [exact (runs_snoc_intro _ _ _ _ _ _ _ _ _ _ R P G E)|]. exact (phase2_step _ _ _ _ _ _ _ W Ma' Sa A I E).
Qed.
Lemma runs_checked L go e0 : List.length (initial_scores e0) = 4%nat -> forall pls, Forall meaningful pls -> forall evs n s, runs L go e0 evs n s pls ->
  passes_checks e0 pls /\ phase2 (stands pls) s.
Proof.
  intros Sc. induction pls as [|a h IH] using rev_ind; intros Me evs n s R.
  - split; [intros before a rest E; now apply app_cons_not_nil in E|]. destruct R as (s0 & E0 & E & Ep). destruct evs; [|discriminate Ep]. cbn in E. apply Ok_inj in E. subst s0. exact (start_phase _ _ _ _ E0).
  - apply Forall_app in Me as [Mh Ma]. inversion Ma as [|? ? Ma' _]. subst. destruct (runs_plays _ _ _ _ _ _ _ R) as (s0 & In0 & E0 & Sp & E).
    apply foldM_app in E as (s1 & E1 & E2). destruct (events_snoc evs h a) as (evs1 & ev & -> & Ev & P); [destruct R as (? & _ & _ & Ep); exact Ep|].
    pose proof (runs_prefix _ _ _ evs1 [ev] _ _ _ R) as (s1' & q1 & q2 & R1 & Eq & Es & Eq2).
    assert (q1 = h). { destruct q2 as [|y [|]]; try discriminate Eq2. apply app_inj_tail in Eq as [-> _]. reflexivity. } subst q1.
    destruct (IH Mh _ _ _ R1) as [C I]. pose proof (runs_wf _ _ _ _ _ _ _ R1) as W. pose proof (meaningful_seat _ Ma') as Sa.
    destruct (runs_plays _ _ _ _ _ _ _ R1) as (s0' & _ & E0' & _ & E1'). rewrite E0 in E0'. apply Ok_inj, pair_equal_spec in E0' as [_ <-]. rewrite E1 in E1'. apply Ok_inj in E1'. subst s1'.
    cbn [foldM] in E2. apply bind_ok in E2 as (s2 & E2 & E3). apply Ok_inj in E3. subst s2.
    destruct (astep_apply _ _ _ _ _ W Sa E2) as [G _]. apply (guard_iff _ _ _ _ _ _ _ _ R1 Sc I W Ma') in G.
    split; [now apply checks_snoc|]. exact (phase2_step _ _ _ _ _ _ _ W Ma' Sa G I E2).
Qed.

(** ** The checks at the end *)
Lemma no_neg_iff v : no_negative v = true <-> forall k, (k < List.length v)%nat -> 0 <= vget v k.
Proof.
  split; [|apply no_neg_intro]. intros H k Hk. unfold no_negative in H. rewrite forallb_forall in H. specialize (H (vget v k) (nth_In v 0 Hk)).
  destruct (Z.ltb_spec (vget v k) 0); [discriminate H|assumption].
Qed.
Lemma counts_iff L go e0 evs n s pls : runs L go e0 evs n s pls -> (no_negative (s_rem s) = true /\ forallb no_negative (s_pov s) = true) <-> enough_tiles e0 pls.
Proof.
  intros R. destruct (runs_wf _ _ _ _ _ _ _ R) as (_ & _ & _ & _ & _ & _ & Lr & Lp & Fp & _). pose proof (seen_inv_holds _ _ _ _ _ _ _ R) as V.
  rewrite no_neg_iff, Lr. split.
  - intros [A B] k Hk. destruct (V k Hk) as [V1 V2]. split; [specialize (A k Hk); lia|]. intros p Hp. specialize (V2 (Z.to_nat p) ltac:(lia)). rewrite Z2Nat.id in V2 by lia.
    rewrite forallb_forall in B. specialize (B (row (s_pov s) (Z.to_nat p))). rewrite no_neg_iff in B. rewrite (RoundLegal.row_length _ 37) in B by (assumption || lia).
    specialize (B ltac:(unfold row; apply nth_In; lia) k Hk). rewrite num_app. lia.
  - intros H. split; [intros k Hk; destruct (V k Hk) as [V1 _]; destruct (H k Hk) as [H1 _]; lia|].
    apply forallb_forall. intros v J. apply (In_nth _ _ []) in J as (p & Hp & <-). rewrite Lp in Hp. change (nth p (s_pov s) []) with (row (s_pov s) p).
    apply no_neg_iff. rewrite (RoundLegal.row_length _ 37) by assumption. intros k Hk. destruct (V k Hk) as [_ V2]. rewrite (V2 p Hp). destruct (H k Hk) as [_ H2]. specialize (H2 (Z.of_nat p) ltac:(lia)).
    rewrite Nat2Z.id, num_app in H2. lia.
Qed.

Lemma proper_scores e0 : proper_deal e0 -> List.length (initial_scores e0) = 4%nat.
Proof. intros (_ & (scores & (st & T1 & T2) & T3) & _). unfold initial_scores. now rewrite T1, T2. Qed.
Lemma scored_iff e : result_event e -> okr (check_result e) <-> scored e.
Proof.
  intros Re. unfold check_result. rewrite (proj2 (result_iff e) Re). cbn [passert bind]. split.
  - intros (u & H). apply bind_ok in H as (sc & A & H). apply bind_ok in H as (l & B & _). split; [exact Re|]. exists l, sc. auto.
  - intros (_ & l & sc & A & B). rewrite A. cbn [bind]. rewrite B. apply okr_ok.
Qed.
Lemma okr_mapM_iff {A B} (f : A -> res B) l : okr (mapM f l) <-> Forall (fun x => okr (f x)) l.
Proof.
  split; [|apply okr_mapM]. intros (r & H). apply mapM_ok in H. induction H; constructor; [eexists; eassumption|assumption].
Qed.
Lemma exact_round L go e0 evs pls results : answers L -> proper_deal e0 -> events_of evs pls -> Forall meaningful pls -> results <> [] -> Forall result_event results ->
  okr (process_round L go (e0 :: evs ++ results)) <-> passes_checks e0 pls /\ enough_tiles e0 pls /\ Forall scored results.
Proof.
  intros An Pd Ev Me Nr Fr. destruct (proper_init go e0 Pd) as (n & s0 & E0). pose proof (proper_scores e0 Pd) as Sc.
  assert (Fe : Forall (fun e => is_result e = false) evs).
  { apply Forall_forall. intros e I. assert (J : In (play_of e) (map Some pls)) by (rewrite <- Ev; now apply in_map).
    apply in_map_iff in J as (a & J & _). symmetry in J. exact (play_not_result _ _ J). }
  assert (Fr' : Forall (fun e => is_result e = true) results) by (eapply Forall_impl; [|exact Fr]; intros e; apply result_iff).
  assert (Hd : match results with [] => False | e :: _ => is_result e = true end) by (destruct results; [congruence|now inversion Fr']).
  assert (Sr : Forall scored results <-> okr (mapM check_result results)).
  { rewrite okr_mapM_iff, !Forall_forall. rewrite Forall_forall in Fr. split; intros H e I; apply (scored_iff e (Fr e I)), (H e I). }
  cbn [process_round]. rewrite E0. cbn [bind]. split.
  - intros (out & H). apply bind_ok in H as ([s res] & E1 & H).
    assert (Q : exists s', foldM (step L n) s0 evs = Ok s').
    { clear - E1 Fe. revert s0 E1. induction Fe as [|ev evs He _ IH]; intros s0 E1; [now exists s0|]. cbn [app run_events foldM] in *. rewrite He in E1. apply bind_ok in E1 as (s1 & E & E1). rewrite E. cbn [bind]. eauto. }
    destruct Q as (s' & Es). rewrite (run_events_intro L n evs results Fe Hd _ _ Es) in E1. apply Ok_inj, pair_equal_spec in E1 as [<- <-].
    assert (R : runs L go e0 evs n s' pls) by (exists s0; auto). destruct (runs_checked L go e0 Sc pls Me _ _ _ R) as [C _].
    apply bind_ok in H as (us & E2 & H). apply bind_ok in H as (u1 & E3 & H). apply bind_ok in H as (u2 & E4 & _). apply passert_ok in E3, E4.
    split; [exact C|]. split; [apply (counts_iff _ _ _ _ _ _ _ R); auto|]. apply Sr. eexists. exact E2.
  - intros (C & T & S). destruct (checked_runs L go e0 n s0 An E0 Sc pls Me C evs Ev) as (s & R & _).
    pose proof R as (s0' & E0' & Es & Ep). rewrite E0 in E0'. apply Ok_inj, pair_equal_spec in E0' as [_ <-].
    rewrite (run_events_intro L n evs results Fe Hd _ _ Es). cbn [bind]. apply okr_bind; [now apply Sr|]. intros _ _.
    apply (counts_iff _ _ _ _ _ _ _ R) in T as [T1 T2]. rewrite T1, T2. cbn [passert bind]. apply okr_ok.
Qed.

(** ** The deal *)
Lemma proper_split e0 : readable_deal e0 -> full_hands e0 -> proper_deal e0.
Proof.
  intros (A & B & C & D & E) H. repeat (split; [assumption|]). intros p Hp. destruct (E p Hp) as (tiles & (st & T1 & T2) & V). exists tiles.
  destruct (H p Hp) as [H1 H2]. unfold dealt in *. rewrite T1, T2, (map_tid_valid _ V) in *. split; [exists st; auto|]. auto.
Qed.
Lemma exact_deal L go e0 evs pls results : answers L -> readable_deal e0 -> events_of evs pls -> Forall meaningful pls -> results <> [] -> Forall result_event results ->
  okr (process_round L go (e0 :: evs ++ results)) <-> full_hands e0 /\ passes_checks e0 pls /\ enough_tiles e0 pls /\ Forall scored results.
Proof.
  intros An Rd Ev Me Nr Fr. split.
  - intros H. assert (F : full_hands e0).
    { destruct H as (out & H). cbn [process_round] in H. apply bind_ok in H as ([n s0] & E0 & _). apply init_inited in E0. intros p Hp. destruct (in_deal _ _ E0 p Hp) as (L13 & _ & Hh).
      split; [exact L13|]. apply Hh. }
    split; [exact F|]. apply (exact_round L go e0 evs pls results An (proper_split e0 Rd F) Ev Me Nr Fr). exact H.
  - intros [F H]. apply (exact_round L go e0 evs pls results An (proper_split e0 Rd F) Ev Me Nr Fr). exact H.
Qed.
