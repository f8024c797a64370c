(** Rounds that follow the rules are processed to the end. *)
From Coq Require Import ZArith List Bool String Ascii Lia PeanoNat Permutation.
From Verif Require Import Base Constants Naki Decision Tokens GameInfo Agari Process VecLemmas
  SpecMeld SpecTokens SpecRound SpecDecision SpecTurn SpecLabels SpecLegal NakiProofs NakiLemmas NakiCore NakiLemmas2 TokensLemmas DecisionProofs DecisionLemmas
  RoundLemmas RoundInv RoundTiles RoundInit RoundBook RoundFlags RoundSplit RoundHalf RoundFacts RoundQuery RoundCount RoundLabels RoundMelds RoundProgress.
Import ListNotations.
Open Scope Z_scope.

(** ** From plays back to events *)
Lemma astep_step L n s ev a s' : play_of ev = Some a -> guard a s -> astep L n s a = Ok s' -> step L n s ev = Ok s'.
Proof.
  unfold play_of, step, attr_int. intros P G H.
  destruct (String.eqb (e_tag ev) "DORA").
  { destruct (dict_get _ _); [|discriminate]. cbn [bind]. destruct (py_int _); [|discriminate]. injection P as <-. exact H. }
  destruct (String.eqb (e_tag ev) "REACH").
  { destruct (dict_get (e_attr ev) "who") as [sw|]; [|discriminate]. cbn [bind]. destruct (py_int sw) as [w|]; [|discriminate].
    destruct (dict_get (e_attr ev) "step") as [st|]; [|discriminate]. cbn [bind].
    destruct (String.eqb st "1"); injection P as <-; exact H. }
  destruct (String.eqb (e_tag ev) "N").
  { destruct (dict_get (e_attr ev) "who") as [sw|]; [|discriminate]. destruct (py_int sw) as [w|] eqn:Ew; [|discriminate].
    destruct (dict_get (e_attr ev) "m") as [sm|]; [|discriminate]. cbn [bind]. destruct (py_int sm) as [c|]; [|discriminate]. injection P as <-.
    cbn [astep] in H. apply bind_ok in H as (u & E & H). rewrite E. cbn [bind]. apply bind_ok in H as (nk & En & H). rewrite En. cbn [bind]. rewrite Ew. exact H. }
  destruct (e_tag ev) as [|ch rest]; [discriminate|]. destruct (py_int rest) as [t|]; [|discriminate].
  destruct (draw_seat ch) as [p|] eqn:Ed.
  { injection P as <-. cbn [astep] in H. rewrite Nat2Z.id in H. destruct G as (Ga & _). rewrite Ga. exact H. }
  destruct (discard_seat ch) as [p|] eqn:Ed2; [|discriminate]. injection P as <-. cbn [astep] in H. rewrite Nat2Z.id in H.
  destruct G as (Ga & Gc & _). destruct (s_acquired s); [|congruence]. cbn [bind passert].
  assert (Q : negb (s_cur s) || cur_during s = true) by (destruct Gc as [->| ->]; [reflexivity|apply orb_true_r]).
  rewrite Q. exact H.
Qed.
Lemma play_not_result ev a : play_of ev = Some a -> is_result ev = false.
Proof.
  intros P. unfold is_result. destruct (String.eqb_spec (e_tag ev) "AGARI") as [E|_].
  { unfold play_of in P. rewrite E in P. cbn in P. discriminate. }
  destruct (String.eqb_spec (e_tag ev) "RYUUKYOKU") as [E|_]; [|reflexivity]. unfold play_of in P. rewrite E in P. cbn in P. discriminate.
Qed.

(** ** Legal histories *)
Lemma stands_snoc h a : stands (h ++ [a]) = after (stands h) a.
Proof. unfold stands. now rewrite fold_left_app. Qed.
Lemma rules_app e0 a b : by_the_rules e0 (a ++ b) -> by_the_rules e0 a.
Proof. intros H x y z E. apply (H x y (z ++ b)). rewrite E, <- app_assoc. reflexivity. Qed.
Lemma rules_last e0 h a : by_the_rules e0 (h ++ [a]) -> allowed e0 h a.
Proof. intros H. now apply (H h a []). Qed.
Lemma rules_ind e0 (P : list play -> Prop) : P [] -> (forall h a, by_the_rules e0 h -> P h -> allowed e0 h a -> P (h ++ [a])) ->
  forall pls, by_the_rules e0 pls -> P pls.
Proof.
  intros P0 Ps pls. induction pls as [|a h IH] using rev_ind; intros H; [exact P0|]. apply Ps; [eapply rules_app; exact H|apply IH; eapply rules_app; exact H|].
  now apply rules_last.
Qed.

(** All tiles that have been turned up or handed out are different. *)
Definition used (e0 : event) (h : list play) : list Z := all_dealt e0 ++ [first_indicator e0] ++ all_drawn h ++ indicators h.
Lemma insert_drawn (a c d : list Z) b t : Permutation (t :: a ++ [b] ++ c ++ d) (a ++ [b] ++ (c ++ [t]) ++ d).
Proof.
  replace (a ++ [b] ++ (c ++ [t]) ++ d) with ((a ++ [b] ++ c) ++ t :: d) by (rewrite <- !app_assoc; reflexivity).
  replace (a ++ [b] ++ c ++ d) with ((a ++ [b] ++ c) ++ d) by (rewrite <- !app_assoc; reflexivity). apply Permutation_middle.
Qed.
Lemma used_nodup e0 pls : NoDup (first_indicator e0 :: all_dealt e0) -> by_the_rules e0 pls -> NoDup (used e0 pls).
Proof.
  intros N. revert pls. apply (rules_ind e0 (fun pls => NoDup (used e0 pls))).
  - unfold used, all_drawn, indicators. cbn [flat_map app]. apply (Permutation_NoDup (l := first_indicator e0 :: all_dealt e0)); [apply Permutation_cons_append|exact N].
  - intros h a _ IH A. unfold used in *. unfold all_drawn, indicators in *. rewrite !flat_map_app.
    destruct a as [w t|w t|w c|w|w|t]; cbn [flat_map]; rewrite ?app_nil_r; try exact IH.
    + destruct A as (_ & (V & A) & _). unfold valid_id in V. rewrite tid_id by lia.
      apply (Permutation_NoDup (l := t :: all_dealt e0 ++ [first_indicator e0] ++ flat_map (fun e => match e with PlDraw _ t => [tid t] | _ => [] end) h ++ flat_map (fun e => match e with PlDora t => [tid t] | _ => [] end) h)); [|constructor; assumption].
      apply insert_drawn.
    + destruct A as (V & A). unfold valid_id in V. rewrite tid_id by lia.
      apply (Permutation_NoDup (l := t :: all_dealt e0 ++ [first_indicator e0] ++ flat_map (fun e => match e with PlDraw _ t => [tid t] | _ => [] end) h ++ flat_map (fun e => match e with PlDora t => [tid t] | _ => [] end) h)); [|constructor; assumption].
      rewrite !app_assoc. apply Permutation_cons_append.
Qed.

Definition own (e0 : event) (h : list play) (p : Z) : list Z := dealt e0 (Z.to_nat p) ++ drawn p h.
Lemma drawn_incl p h : incl (drawn p h) (all_drawn h).
Proof.
  intros x I. unfold drawn, all_drawn in *. apply in_flat_map in I as (a & I & J). apply in_flat_map. exists a. split; [exact I|].
  destruct a; try destruct J. destruct (who =? p); [exact J|destruct J].
Qed.
Lemma dealt_incl e0 p : (p < 4)%nat -> incl (dealt e0 p) (all_dealt e0).
Proof. intros H x I. unfold all_dealt. apply in_flat_map. exists p. split; [apply in_seq; lia|exact I]. Qed.
Lemma nodup_left {A} (a b : list A) : NoDup (a ++ b) -> NoDup a.
Proof. induction a as [|x a IH]; intros N; [constructor|]. inversion N as [|? ? H1 H2]. subst. constructor; [|auto]. intros I. apply H1. apply in_or_app. now left. Qed.
Lemma nodup_right {A} (a b : list A) : NoDup (a ++ b) -> NoDup b.
Proof. induction a as [|x a IH]; intros N; [exact N|]. inversion N. auto. Qed.
Lemma dealt_nodup e0 p : NoDup (all_dealt e0) -> (p < 4)%nat -> NoDup (dealt e0 p).
Proof.
  intros N H. unfold all_dealt in N. cbn [seq flat_map] in N. rewrite app_nil_r in N.
  assert (p = 0 \/ p = 1 \/ p = 2 \/ p = 3)%nat as [->|[->|[->| ->]]] by lia.
  - now apply nodup_left in N.
  - apply nodup_right in N. now apply nodup_left in N.
  - do 2 apply nodup_right in N. now apply nodup_left in N.
  - now do 3 apply nodup_right in N.
Qed.
Lemma own_nodup e0 pls p : NoDup (first_indicator e0 :: all_dealt e0) -> 0 <= p < 4 -> by_the_rules e0 pls -> NoDup (own e0 pls p).
Proof.
  intros N Hp. revert pls. apply (rules_ind e0 (fun pls => NoDup (own e0 pls p))).
  - unfold own, drawn. cbn [flat_map]. rewrite app_nil_r. inversion N. apply dealt_nodup; [assumption|lia].
  - intros h a _ IH A. unfold own in *. rewrite drawn_app. destruct a as [w t|w t|w c|w|w|t]; unfold drawn at 2; cbn [flat_map]; rewrite ?app_nil_r; try exact IH.
    destruct (w =? p); [|rewrite app_nil_r; exact IH]. destruct A as (_ & (V & A) & _). unfold valid_id in V. rewrite tid_id by lia.
    rewrite app_assoc. apply (Permutation_NoDup (l := t :: dealt e0 (Z.to_nat p) ++ drawn p h)); [apply Permutation_cons_append|]. constructor; [|exact IH].
    intros I. apply A. apply in_or_app. apply in_app_or in I as [I|I]; [left; refine (dealt_incl e0 (Z.to_nat p) _ t I); lia|].
    right. apply in_or_app. right. apply in_or_app. left. exact (drawn_incl p h t I).
Qed.

(** ** Hand sizes *)
Definition holder (st : standing) : option Z := match st with Drew w | Called w => Some w | _ => None end.
Definition size (h : list play) (p : Z) : Z := 13 + zlen (drawn p h) - zlen (discarded p h) - zlen (shown p h).
Lemma shown_number c : in_range c -> Z.of_nat (List.length (shown_by c)) =
  match spec_kind c with Some Chi | Some Pon => 2 | Some Kakan => 1 | Some Minkan => 3 | _ => 4 end.
Proof.
  intros R. assert (Hk : spec_kind c <> None) by (intros E; unfold in_range in R; rewrite E in R; exact R).
  destruct (proj1 (classify c) Hk) as (_ & (ex & a) & E). destruct (meld_possible c ex a R E) as (k & Ek & _ & _ & P). rewrite Ek.
  unfold shown_by. rewrite E. destruct k; destruct P as (Pa & Pl & _); destruct a; cbn [all_tiles List.length] in Pl; congruence || lia.
Qed.
Lemma sizes e0 pls : by_the_rules e0 pls -> forall p, 0 <= p < 4 ->
  size pls p mod 3 = if match holder (stands pls) with Some w => w =? p | None => false end then 2 else 1.
Proof.
  revert pls. apply (rules_ind e0 (fun pls => forall p, 0 <= p < 4 -> size pls p mod 3 = if match holder (stands pls) with Some w => w =? p | None => false end then 2 else 1)).
  - intros p Hp. reflexivity.
  - intros h a _ IH A p Hp. specialize (IH p Hp). rewrite stands_snoc.
    assert (Es : size (h ++ [a]) p = size h p + zlen (drawn p [a]) - zlen (discarded p [a]) - zlen (shown p [a])).
    { unfold size. rewrite drawn_app, discarded_app, shown_app, !zlen_app. lia. }
    rewrite Es. clear Es. unfold zlen, drawn, discarded, shown. destruct a as [w t|w t|w c|w|w|t]; cbn [flat_map after]; rewrite ?app_nil_r; cbn [List.length].
    + destruct A as (_ & _ & A). assert (Hn : holder (stands h) = None) by (destruct A as [->|(d & x & ->)]; reflexivity). rewrite Hn in IH. cbn [holder].
      destruct (w =? p); cbn [List.length]; [|now rewrite !Z.sub_0_r, Z.add_0_r]. replace (size h p + Z.of_nat 1 - Z.of_nat 0 - Z.of_nat 0) with (size h p + 1) by lia.
      rewrite <- Z.add_mod_idemp_l, IH by lia. reflexivity.
    + destruct A as (_ & _ & A). assert (Hn : holder (stands h) = Some w) by (destruct A as [->| ->]; reflexivity). rewrite Hn in IH. cbn [holder].
      destruct (w =? p); cbn [List.length]; [|now rewrite !Z.sub_0_r, Z.add_0_r]. replace (size h p + Z.of_nat 0 - Z.of_nat 1 - Z.of_nat 0) with (size h p + (-1)) by lia.
      rewrite <- Z.add_mod_idemp_l, IH by lia. reflexivity.
    + destruct A as (_ & R & _ & A). pose proof (shown_number c R) as Sn.
      assert (Hk : spec_kind c <> None) by (intros E; unfold in_range in R; rewrite E in R; exact R). destruct (w =? p) eqn:Ew.
      * rewrite map_length. replace (size h p + Z.of_nat 0 - Z.of_nat 0 - Z.of_nat (List.length (shown_by c))) with (size h p + (- Z.of_nat (List.length (shown_by c)))) by lia.
        rewrite Sn. rewrite <- Z.add_mod_idemp_l by lia. rewrite IH.
        destruct (spec_kind c) as [[]|]; [..|congruence]; cbn [holder]; try (destruct A as (d & x & -> & _)); try rewrite A; cbn [holder]; rewrite ?Ew; reflexivity.
      * cbn [List.length]. rewrite !Z.sub_0_r, Z.add_0_r, IH.
        destruct (spec_kind c) as [[]|]; [..|congruence]; try (destruct A as (d & x & -> & _)); try rewrite A; cbn [holder]; rewrite ?Ew; reflexivity.
    + now rewrite !Z.sub_0_r, Z.add_0_r.
    + now rewrite !Z.sub_0_r, Z.add_0_r.
    + now rewrite !Z.sub_0_r, Z.add_0_r.
Qed.

(** ** Where the event loop stands *)
Lemma no_kakan_bit c : field c 4 1 = 0 -> Z.land c 0x10 = 0.
Proof.
  intros F. assert (T : Z.testbit c 4 = false).
  { pose proof (f_equal (fun x => Z.testbit x 0) F) as H. cbv beta in H. unfold field in H. rewrite Z.land_spec, Z.shiftr_spec in H by lia. now rewrite andb_true_r in H. }
  apply Z.bits_inj'. intros m Hm. rewrite Z.land_spec, Z.bits_0. change 16 with (2 ^ 4). destruct (Z.eq_dec m 4) as [->|N]; [now rewrite T|].
  rewrite Z.pow2_bits_false by lia. apply andb_false_r.
Qed.
Lemma kinds c : in_range c ->
  is_ankan c || is_kakan c = match spec_kind c with Some Ankan | Some Kakan => true | _ => false end /\
  is_minkan c || is_ankan c || is_kakan c = match spec_kind c with Some Chi | Some Pon => false | _ => true end.
Proof.
  intros R. destruct (kind_predicates c) as (K1 & K2 & K3 & K4 & K5).
  assert (Kk : is_kakan c = true <-> spec_kind c = Some Kakan).
  { split.
    - intros E. destruct (is_pon c) eqn:Ep; [|apply K3; now rewrite E]. assert (Eq : spec_kind c = Some Pon) by (apply K2; reflexivity). unfold in_range in R. rewrite Eq in R. destruct R as [R _].
      exfalso. unfold is_kakan in E. apply andb_prop in E as [_ E]. apply negb_true_iff, Z.eqb_neq in E. apply E. exact (no_kakan_bit c R).
    - intros E. apply K3 in E. now apply andb_prop in E as [E _]. }
  assert (Q : forall b (P : Prop), (b = true <-> P) -> ~ P -> b = false) by (intros b P H N; destruct b; [exfalso; apply N, H; reflexivity|reflexivity]).
  unfold in_range in R. destruct (spec_kind c) as [[]|]; [..|destruct R].
  - rewrite (Q _ _ K4), (Q _ _ K5), (Q _ _ Kk) by discriminate. split; reflexivity.
  - rewrite (Q _ _ K4), (Q _ _ K5), (Q _ _ Kk) by discriminate. split; reflexivity.
  - rewrite (proj2 Kk eq_refl), !orb_true_r. split; reflexivity.
  - rewrite (Q _ _ K5), (Q _ _ Kk), (proj2 K4 eq_refl) by discriminate. split; reflexivity.
  - rewrite (proj2 K5 eq_refl), !orb_true_r. split; reflexivity.
Qed.

Definition phase_ok (st : standing) (s : rstate) : Prop :=
  match st with
  | Waiting => s_acquired s = None
  | Drew _ => s_acquired s <> None /\ cur_during s = true /\ s_sobj s <> None
  | Called _ => s_acquired s <> None /\ s_cur s = false /\ s_sobj s <> None
  | Threw _ _ => s_acquired s = None /\ cur_post s = true
  end.
Lemma phase_step L n e0 h a s s' : wf s -> seated a -> allowed e0 h a -> phase_ok (stands h) s -> astep L n s a = Ok s' -> phase_ok (stands (h ++ [a])) s'.
Proof.
  intros W S A I E. rewrite stands_snoc. pose proof (astep_apply _ _ _ _ _ W S E) as [_ Es].
  apply strip_fields in Es as (_ & _ & _ & _ & _ & _ & _ & _ & _ & _ & _ & _ & _ & _ & _ & _ & Ea). rewrite ap_acquired in Ea.
  pose proof (astep_cur _ _ _ _ _ W S E) as Cu. apply astep_half in E; [|exact W|exact S].
  destruct a as [w t|w t|w c|w|w|t]; cbn [after].
  - destruct E as (so & ds & _ & Eh & Eo & _). cbn [phase_ok]. rewrite cur_during_top, Cu, Ea, Eo. unfold top_during. rewrite Eh. split; [discriminate|]. split; [reflexivity|discriminate].
  - destruct E as (so & ds & tok & _ & Eh & _). cbn [phase_ok]. rewrite cur_post_top, Cu, Ea. unfold top_post. rewrite Eh. split; reflexivity.
  - destruct E as (so & hs & tok & _ & _ & _ & Eo & _). destruct Cu as [_ Cu]. destruct A as (_ & R & _ & A). rewrite (proj2 (kinds c R)) in Ea.
    destruct (spec_kind c) as [[]|]; cbn [phase_ok]; try exact Ea;
      destruct A as (d & x & _ & _ & Ec); rewrite Ec in Ea; cbn [hd_error] in Ea; rewrite Ea, Eo; (split; [discriminate|]; split; [exact Cu|discriminate]).
  - destruct E as ([M _] & Eo & _). destruct A as (_ & A). rewrite A in *. cbn [phase_ok] in *. rewrite cur_during_top in *. unfold top_during in *. rewrite Ea, Eo, M, (proj2 Cu). rewrite (proj1 Cu) in I. exact I.
  - destruct E as ([M _] & Eo & _). destruct A as (_ & t & A). rewrite A in *. cbn [phase_ok] in *. rewrite cur_post_top in *. unfold top_post in *. rewrite Ea, M, (proj2 Cu). rewrite (proj1 Cu) in I. exact I.
  - destruct E as ([M _] & Eo & _). destruct (stands h); cbn [phase_ok] in *; rewrite ?cur_post_top, ?cur_during_top in *; unfold top_post, top_during in *; rewrite ?Ea, ?Eo, ?M, ?Cu; exact I.
Qed.

Lemma scores_len L go e0 evs n s pls : runs L go e0 evs n s pls -> List.length (s_scores s) = List.length (initial_scores e0).
Proof.
  intros R. eapply (runs_inv _ _ _ _ _ _ _ (fun _ s => List.length (s_scores s) = List.length (initial_scores e0))) in R; [exact (proj1 R)| | |]; clear.
  - intros s0 In0. now rewrite (in_scores _ _ In0).
  - intros h a s _ _ I _. rewrite ap_scores. destruct a; try exact I. unfold vadd. rewrite length_upd. exact I.
  - intros h s s' E I. apply strip_fields in E as (_ & _ & _ & _ & _ & _ & _ & _ & Esc & _). now rewrite <- Esc.
Qed.

(** ** A legal play passes the checks of the event loop *)
Lemma allowed_seat e0 h a : allowed e0 h a -> seated a.
Proof. destruct a; cbn; tauto. Qed.
Lemma legal_hand L go e0 evs n s pls p : runs L go e0 evs n s pls -> 0 <= p < 4 -> exists hl,
  Forall (fun x => 0 <= x < 136) hl /\ incl hl (own e0 pls p) /\ (forall t, in_hand e0 pls p t -> In t hl) /\
  (forall x, 0 <= x < 136 -> (In x hl -> vget (row (s_hands s) (Z.to_nat p)) (Z.to_nat x) = 1) /\ (~ In x hl -> vget (row (s_hands s) (Z.to_nat p)) (Z.to_nat x) = 0)) /\
  (forall k, (k < 37)%nat -> vget (row (s_ht s) (Z.to_nat p)) k = num k hl) /\ Z.of_nat (List.length hl) = size pls p.
Proof.
  intros R Hp. destruct (hands_exact _ _ _ _ _ _ _ p R Hp) as (hl & _ & F & P & V & K & _). exists hl. split; [exact F|].
  split. { intros x I. unfold own. apply (Permutation_in _ (Permutation_sym P)). apply in_or_app. right. apply in_or_app. now right. }
  split. { intros t [I N]. apply (Permutation_in _ P) in I. rewrite app_assoc in I. apply in_app_or in I as [I|I]; [contradiction|exact I]. }
  split; [exact V|]. split; [intros k Hk; exact (proj1 (K k Hk))|].
  apply Permutation_length in P. rewrite !app_length in P. destruct (runs_plays _ _ _ _ _ _ _ R) as (s0 & In0 & _).
  destruct (in_deal _ _ In0 (Z.to_nat p) ltac:(lia)) as (L13 & _). unfold size, zlen. lia.
Qed.
Lemma sum_hand v hl x d : List.length v = 37%nat -> (forall k, (k < 37)%nat -> vget v k = num k hl) -> Forall (fun x => 0 <= x < 136) hl ->
  vsum (firstn 34 (vadds v (tix x) d)) = Z.of_nat (List.length hl) + d.
Proof.
  intros L V F. rewrite vsum_index, firstn_length, length_vadds, L. change (Nat.min 34 37) with 34%nat.
  rewrite (vsum_ext _ (fun k => num k hl + d * num k [tid x])).
  2:{ intros k I. apply in_seq in I. rewrite vget_firstn by lia. rewrite vget_tix by (exact L || lia). rewrite V by lia. reflexivity. }
  rewrite vsum_map_add, vsum_map_scale, !RoundInit.sum_num; [cbn [List.length]; lia| |exact F]. constructor; [apply tid_range|constructor].
Qed.
Lemma exposable_in p ex : forall h, List.length h = 136%nat -> NoDup ex -> Forall (fun x => 0 <= x < 136 /\ vget h (Z.to_nat x) = 1) ex -> exposable p h ex.
Proof.
  induction ex as [|e ex IH]; intros h Lh N F; [exact I|]. inversion F as [|? ? [Re He] Fe]. inversion N as [|? ? Ni Ne]. subst. cbn [exposable].
  assert (Et : tnat e = Z.to_nat e) by (unfold tnat; now rewrite tid_id by lia). rewrite Et. split; [exact He|]. apply IH; [unfold vadd; now rewrite length_upd|exact Ne|].
  rewrite Forall_forall in *. intros x Ix. destruct (Fe x Ix) as [Rx Hx]. split; [exact Rx|]. rewrite vget_vadd by lia.
  destruct (Nat.eqb_spec (Z.to_nat e) (Z.to_nat x)) as [Q|Q]; [|lia]. exfalso. apply Ni. replace e with x by lia. exact Ix.
Qed.
Lemma row_length (m : list (list Z)) k p : List.length m = 4%nat -> Forall (fun r => List.length r = k) m -> (p < 4)%nat -> List.length (row m p) = k.
Proof. intros L F H. rewrite Forall_forall in F. apply F. unfold row. apply nth_In. lia. Qed.

Lemma legal_guard L go e0 evs n s pls a : runs L go e0 evs n s pls -> List.length (initial_scores e0) = 4%nat -> by_the_rules e0 pls -> phase_ok (stands pls) s ->
  wf s -> allowed e0 pls a -> guard a s.
Proof.
  intros R Sc B I W A. pose proof (fun p => sizes e0 pls B p) as Z. destruct W as (Lh & Fh & Lt & Ft & _).
  destruct a as [w t|w t|w c|w|w|t]; cbn [guard].
  - destruct A as (Hw & (V & A) & St). unfold valid_id in V. destruct (legal_hand _ _ _ _ _ _ _ w R Hw) as (hl & F & Inc & _ & Hv & Ht & Hs).
    assert (Na : s_acquired s = None) by (destruct St as [St|(d & x & St)]; rewrite St in I; cbn in I; tauto). split; [exact Na|]. split; [lia|].
    unfold tnat. rewrite tid_id by lia. split.
    + apply Hv; [lia|]. intros J. apply Inc in J. apply A. unfold own in J. apply in_or_app. apply in_app_or in J as [J|J]; [left; refine (dealt_incl e0 (Z.to_nat w) _ t J); lia|].
      right. apply in_or_app. right. apply in_or_app. left. exact (drawn_incl w pls t J).
    + rewrite ap_ht. rewrite row_upd by lia. rewrite Nat.eqb_refl. rewrite (sum_hand _ hl) by (assumption || (apply (row_length _ 37); assumption || lia)).
      rewrite Hs. rewrite <- Z.add_mod_idemp_l, (Z w Hw) by lia. destruct St as [->|(d & x & ->)]; reflexivity.
  - destruct A as (Hw & Ih & St). destruct (legal_hand _ _ _ _ _ _ _ w R Hw) as (hl & F & Inc & Hin & Hv & Ht & Hs). apply Hin in Ih.
    assert (V : 0 <= t < 136) by (rewrite Forall_forall in F; now apply F).
    assert (Q : s_acquired s <> None /\ (s_cur s = false \/ cur_during s = true) /\ s_sobj s <> None) by (destruct St as [St|St]; rewrite St in I; cbn in I; tauto).
    destruct Q as (Q1 & Q2 & Q3). split; [exact Q1|]. split; [exact Q2|]. split; [lia|]. unfold tnat. rewrite tid_id by lia. split; [apply Hv; assumption|]. split; [exact Q3|].
    rewrite ap_ht. rewrite row_upd by lia. rewrite Nat.eqb_refl. rewrite (sum_hand _ hl) by (assumption || (apply (row_length _ 37); assumption || lia)).
    rewrite Hs. rewrite <- Z.add_mod_idemp_l, (Z w Hw) by lia. destruct St as [->| ->]; cbn [holder]; rewrite Z.eqb_refl; reflexivity.
  - destruct A as (Hw & Rc & Ih & St). destruct (legal_hand _ _ _ _ _ _ _ w R Hw) as (hl & F & Inc & Hin & Hv & Ht & Hs).
    assert (Hk : spec_kind c <> None) by (intros E; unfold in_range in Rc; rewrite E in Rc; exact Rc).
    destruct (proj1 (classify c) Hk) as (Hn & (ex & ac) & He). destruct (meld_possible c ex ac Rc He) as (k & _ & Nd & Fv & _).
    assert (Esh : shown_by c = ex) by (unfold shown_by; now rewrite He).
    assert (Ecl : claimed_by c = match ac with Some a => [a] | None => [] end) by (unfold claimed_by; rewrite He; now destruct ac).
    split; [exact Hw|]. split; [exact Hn|]. split; [eauto|]. split.
    { rewrite (proj1 (kinds c Rc)). destruct (spec_kind c) as [[]|]; [..|congruence]; try (destruct St as (d & x & St & _)); rewrite St in I; cbn in I; tauto. }
    split.
    { rewrite Esh, Ecl. rewrite Forall_forall in Fv. apply Forall_forall. intros x Ix. assert (J : In x (all_tiles ex ac)).
      { destruct ac; cbn [all_tiles]; apply in_app_or in Ix as [Ix|Ix]; cbn in *; tauto. }
      specialize (Fv x J). unfold valid_id in Fv. lia. }
    apply exposable_in; [apply (row_length _ 136); assumption || lia|rewrite Esh; destruct ac; cbn [all_tiles] in Nd; [now inversion Nd|exact Nd]|].
    rewrite Forall_forall in *. intros x Ix. specialize (Ih x Ix). apply Hin in Ih. assert (V : 0 <= x < 136) by now apply F. split; [exact V|]. now apply Hv.
  - destruct A as (Hw & St). rewrite St in I. cbn in I. split; [tauto|]. split; [tauto|lia].
  - destruct A as (Hw & t & St). rewrite St in I. cbn in I. split; [tauto|]. split; [exact Hw|]. rewrite (scores_len _ _ _ _ _ _ _ R), Sc. lia.
  - destruct A as (V & _). unfold valid_id in V. lia.
Qed.

(** ** The whole round *)
Lemma runs_snoc_intro L go e0 evs n s pls ev a s' : runs L go e0 evs n s pls -> play_of ev = Some a -> guard a s -> astep L n s a = Ok s' ->
  runs L go e0 (evs ++ [ev]) n s' (pls ++ [a]).
Proof.
  intros (s0 & E0 & E & Ep) P G H. exists s0. split; [exact E0|]. split.
  - rewrite (foldM_snoc _ _ _ _ s) by exact E. exact (astep_step _ _ _ _ _ _ P G H).
  - rewrite !map_app, Ep. cbn [map]. now rewrite P.
Qed.

Lemma events_snoc evs pls a : events_of evs (pls ++ [a]) -> exists evs1 ev, evs = evs1 ++ [ev] /\ events_of evs1 pls /\ play_of ev = Some a.
Proof.
  unfold events_of. rewrite map_app. cbn [map]. intros H. destruct (exists_last (l := evs)) as (evs1 & ev & ->).
  { intros ->. cbn in H. now apply app_cons_not_nil in H. }
  rewrite map_app in H. cbn [map] in H. apply app_inj_tail in H as [H1 H2]. eauto.
Qed.
Lemma legal_runs L go e0 n s0 : answers L -> init_round go e0 = Ok (n, s0) -> List.length (initial_scores e0) = 4%nat ->
  forall pls, by_the_rules e0 pls -> forall evs, events_of evs pls -> exists s, runs L go e0 evs n s pls /\ phase_ok (stands pls) s.
Proof.
  intros An E0 Sc. apply (rules_ind e0 (fun pls => forall evs, events_of evs pls -> exists s, runs L go e0 evs n s pls /\ phase_ok (stands pls) s)).
  - intros [|ev evs] H; [|discriminate H]. exists s0. split; [exists s0; auto|]. apply init_inited in E0. destruct (in_rest _ _ E0) as (_ & _ & _ & _ & _ & _ & _ & _ & A & _). exact A.
  - intros h a B IH A evs H. apply events_snoc in H as (evs1 & ev & -> & H & P). destruct (IH _ H) as (s & R & I).
    assert (W : wf s) by (eapply (runs_inv _ _ _ _ _ _ _ (fun _ _ => True)) in R; [apply R|auto..]).
    pose proof (allowed_seat _ _ _ A) as Sa. pose proof (legal_guard _ _ _ _ _ _ _ _ R Sc B I W A) as G.
    destruct (progress L n s a) as (s' & E); try assumption.
    + intros p Hp. destruct (melds_inv_holds _ _ _ _ _ _ _ R (Z.of_nat p) ltac:(lia)) as [_ M]. now rewrite Nat2Z.id in M.
    + destruct a; try exact Logic.I. destruct A as (_ & A & _). exact A.
    + exists s'. split; [exact (runs_snoc_intro _ _ _ _ _ _ _ _ _ _ R P G E)|]. exact (phase_step _ _ _ _ _ _ _ W Sa A I E).
Qed.

(** ** Nothing is counted twice *)
Lemma four z : 0 <= z < 4 -> z = 0 \/ z = 1 \/ z = 2 \/ z = 3.
Proof. lia. Qed.
Lemma others_discards k p h : 0 <= p < 4 -> seats_ok h -> num k (discards_of_others p h) + num k (discarded p h) = over4 (fun q => num k (discarded q h)).
Proof.
  intros Hp. unfold seats_ok, over4, discards_of_others, discarded. induction 1 as [|a h Ha _ IH]; [cbn [flat_map]; rewrite !num_nil; reflexivity|].
  destruct a as [w t|w t|w c|w|w|t]; cbn [flat_map]; rewrite ?num_app, ?num_nil; try lia.
  apply four in Ha, Hp. destruct Ha as [->|[->|[->| ->]]], Hp as [->|[->|[->| ->]]]; cbn [Z.eqb Pos.eqb]; rewrite ?num_nil in *; lia.
Qed.
Lemma others_shown k p h : 0 <= p < 4 -> seats_ok h -> num k (shown_by_others p h) + num k (shown p h) = over4 (fun q => num k (shown q h)).
Proof.
  intros Hp. unfold seats_ok, over4, shown_by_others, shown. induction 1 as [|a h Ha _ IH]; [cbn [flat_map]; rewrite !num_nil; reflexivity|].
  destruct a as [w t|w t|w c|w|w|t]; cbn [flat_map]; rewrite ?num_app, ?num_nil; try lia.
  apply four in Ha, Hp. destruct Ha as [->|[->|[->| ->]]], Hp as [->|[->|[->| ->]]]; cbn [Z.eqb Pos.eqb]; rewrite ?num_nil in *; lia.
Qed.
Lemma all_draws k h : seats_ok h -> num k (all_drawn h) = over4 (fun q => num k (drawn q h)).
Proof.
  unfold seats_ok, over4, all_drawn, drawn. induction 1 as [|a h Ha _ IH]; [cbn [flat_map]; rewrite !num_nil; reflexivity|].
  destruct a as [w t|w t|w c|w|w|t]; cbn [flat_map]; rewrite ?num_app, ?num_nil; try lia.
  apply four in Ha. destruct Ha as [->|[->|[->| ->]]]; cbn [Z.eqb Pos.eqb]; rewrite ?num_nil in *; lia.
Qed.
Lemma used_valid e0 h : Forall (fun x => 0 <= x < 136) (used e0 h).
Proof.
  unfold used. apply Forall_app. split; [|apply Forall_app; split; [|apply Forall_app; split]].
  - apply Forall_forall. intros x I. unfold all_dealt in I. apply in_flat_map in I as (p & _ & I). unfold dealt in I.
    destruct (dict_get _ _); [|destruct I]. destruct (ints _); [|destruct I]. apply in_map_iff in I as (y & <- & _). apply tid_range.
  - constructor; [|constructor]. unfold first_indicator. destruct (seed_of e0) as [|? [|? [|? [|? [|? [|? []]]]]]]; apply tid_range || (split; lia).
  - apply Forall_forall. intros x I. unfold all_drawn in I. apply in_flat_map in I as (a & _ & I). destruct a; try contradiction. destruct I as [<-|[]]. apply tid_range.
  - apply Forall_forall. intros x I. unfold indicators in I. apply in_flat_map in I as (a & _ & I). destruct a; try contradiction. destruct I as [<-|[]]. apply tid_range.
Qed.
Lemma no_neg_intro v : (forall k, (k < List.length v)%nat -> 0 <= vget v k) -> no_negative v = true.
Proof.
  intros H. unfold no_negative. apply forallb_forall. intros x I. apply (In_nth _ _ 0) in I as (k & Hk & <-). specialize (H k Hk). unfold vget in H.
  destruct (Z.ltb_spec (nth k v 0) 0); [lia|reflexivity].
Qed.
Lemma legal_counts L go e0 evs n s pls : runs L go e0 evs n s pls -> NoDup (first_indicator e0 :: all_dealt e0) -> by_the_rules e0 pls ->
  no_negative (s_rem s) = true /\ forallb no_negative (s_pov s) = true.
Proof.
  intros R N B. pose proof (used_nodup e0 pls N B) as U. pose proof (seats_ok_holds _ _ _ _ _ _ _ R) as So.
  assert (W : wf s) by (eapply (runs_inv _ _ _ _ _ _ _ (fun _ _ => True)) in R; [apply R|auto..]).
  destruct W as (_ & _ & _ & _ & _ & _ & Lr & Lp & Fp & _).
  assert (Rem : forall k, (k < 37)%nat -> 0 <= class_size k - num k (all_dealt e0) - num k [first_indicator e0] - num k (all_drawn pls) - num k (indicators pls)).
  { intros k Hk. pose proof (num_bound k _ Hk U (used_valid e0 pls)) as [_ Q]. unfold used in Q. rewrite !num_app in Q. lia. }
  split.
  - apply no_neg_intro. rewrite Lr. intros k Hk. destruct (seen_inv_holds _ _ _ _ _ _ _ R k Hk) as [-> _]. specialize (Rem k Hk). pose proof (num_nonneg k (indicators pls)). destruct (Nat.ltb k 34); lia.
  - apply forallb_forall. intros v I. apply (In_nth _ _ []) in I as (p & Hp & <-). rewrite Lp in Hp. change (nth p (s_pov s) []) with (row (s_pov s) p).
    apply no_neg_intro. rewrite (row_length _ 37) by assumption. intros k Hk. destruct (seen_inv_holds _ _ _ _ _ _ _ R k Hk) as [_ V]. rewrite (V p Hp). specialize (Rem k Hk).
    pose proof (num_nonneg k (indicators pls)) as Ni.
    assert (H : forall q, 0 <= q < 4 -> 0 <= num k (dealt e0 (Z.to_nat q)) + num k (drawn q pls) - num k (discarded q pls) - num k (shown q pls)).
    { intros q Hq. destruct (hands_exact _ _ _ _ _ _ _ q R Hq) as (hl & _ & _ & P & _). apply (num_perm k) in P. rewrite !num_app in P. pose proof (num_nonneg k hl). lia. }
    pose proof (others_discards k (Z.of_nat p) pls ltac:(lia) So) as D. pose proof (others_shown k (Z.of_nat p) pls ltac:(lia) So) as S. rewrite (all_draws k pls So) in Rem.
    unfold all_dealt in Rem. cbn [seq flat_map] in Rem. rewrite !num_app, num_nil in Rem. unfold over4 in *.
    pose proof (H 0 ltac:(lia)) as H0. pose proof (H 1 ltac:(lia)) as H1. pose proof (H 2 ltac:(lia)) as H2. pose proof (H 3 ltac:(lia)) as H3.
    change (Z.to_nat 0) with 0%nat in H0. change (Z.to_nat 1) with 1%nat in H1. change (Z.to_nat 2) with 2%nat in H2. change (Z.to_nat 3) with 3%nat in H3.
    assert (p = 0 \/ p = 1 \/ p = 2 \/ p = 3)%nat as [->|[->|[->| ->]]] by lia;
      [change (Z.of_nat 0) with 0 in *|change (Z.of_nat 1) with 1 in *|change (Z.of_nat 2) with 2 in *|change (Z.of_nat 3) with 3 in *]; destruct (Nat.ltb k 34); lia.
Qed.

(** ** The deal *)
Lemma okr_deal hi : forall s, Forall valid_id hi -> okr (foldM deal_tile s hi).
Proof.
  induction hi as [|t hi IH]; intros s F; [apply okr_ok|]. inversion F as [|? ? V F']. subst. cbn [foldM]. apply okr_bind; [|intros; now apply IH].
  destruct s as [[a b] c]. cbn [deal_tile]. apply okr_bind; [|intros; apply okr_ok]. apply okr_tile2idx. unfold valid_id in V. lia.
Qed.
Lemma okr_deal_all his : forall rem, Forall (Forall valid_id) his -> okr (deal_all his rem).
Proof.
  induction his as [|hi his IH]; intros rem F; [apply okr_ok|]. inversion F as [|? ? V F']. subst. cbn [deal_all].
  apply okr_bind; [now apply okr_deal|]. intros [[a b] c] _. apply okr_bind; [now apply IH|]. intros [[d e] f] _. apply okr_ok.
Qed.
Lemma vsets_sum ks : forall v, NoDup ks -> Forall (fun k => (k < List.length v)%nat) ks -> (forall k, In k ks -> vget v k = 0) ->
  vsum (vsets v ks 1) = vsum v + Z.of_nat (List.length ks).
Proof.
  unfold vsets. induction ks as [|k ks IH]; intros v N F B; cbn [fold_left List.length]; [lia|]. inversion N as [|? ? Ni N']. inversion F as [|? ? Hk F']. subst.
  rewrite IH.
  - rewrite vsum_vset by exact Hk. rewrite (B k) by now left. lia.
  - exact N'.
  - eapply Forall_impl; [|exact F']. intros j. cbv beta. now rewrite length_vset.
  - intros j J. rewrite Forall_forall in F'. rewrite vget_vset by (now apply F'). destruct (Nat.eqb_spec k j) as [->|]; [contradiction|]. apply B. now right.
Qed.
Lemma max_one l : Forall (fun x => x = 0 \/ x = 1) l -> In 1 l -> fold_right Z.max 0 l = 1.
Proof.
  intros F I. assert (U : fold_right Z.max 0 l <= 1) by (clear I; induction F; cbn [fold_right]; lia).
  assert (G : 1 <= fold_right Z.max 0 l) by (clear U F; induction l as [|x l IH]; [destruct I|]; cbn [fold_right]; destruct I as [->|I]; [|specialize (IH I)]; lia). lia.
Qed.
Lemma map_tid_valid l : Forall valid_id l -> map tid l = l.
Proof. induction 1 as [|x l V _ IH]; [reflexivity|]. cbn [map]. rewrite IH. f_equal. apply tid_id. unfold valid_id in V. lia. Qed.

Lemma nodup_map_in {A B} (f : A -> B) l : (forall x y, In x l -> In y l -> f x = f y -> x = y) -> NoDup l -> NoDup (map f l).
Proof.
  induction l as [|a l IH]; intros H N; [constructor|]. inversion N as [|? ? Ni N']. subst. cbn [map]. constructor.
  - intros I. apply in_map_iff in I as (b & E & I). apply H in E; [subst; contradiction|now right|now left].
  - apply IH; [|exact N']. intros x y Ix Iy. apply H; now right.
Qed.

Lemma proper_init go e0 : proper_deal e0 -> exists n s0, init_round go e0 = Ok (n, s0).
Proof.
  intros (Ht & (scores & (st & T1 & T2) & T3) & (dealer & D1 & D2) & (r & honba & sticks & d1 & d2 & ind & (sd & S1 & S2) & Vi) & Hd).
  assert (Q : okr (init_round go e0)); [|destruct Q as ([n s0] & E); eauto].
  unfold init_round. apply okr_bind; [now apply okr_passert, String.eqb_eq|]. intros _ _.
  rewrite T1. cbn [bind]. rewrite T2. cbn [bind]. unfold attr_int in D1. destruct (dict_get (e_attr e0) "oya") as [so|]; [|discriminate]. cbn [bind].
  destruct (py_int so) as [z|]; [|discriminate]. injection D1 as ->. cbn [bind].
  apply okr_bind; [apply okr_py_index; lia|]. intros pi _. rewrite S1. cbn [bind]. rewrite S2. cbn [bind].
  apply okr_bind.
  { apply okr_mapM. apply Forall_forall. intros p Ip. apply in_seq in Ip. destruct (Hd p ltac:(lia)) as (tiles & (s & A & B) & _). rewrite A. cbn [bind]. rewrite B. apply okr_ok. }
  intros his Ehis. pose proof (mapM_length _ _ _ Ehis) as Lhis. rewrite seq_length in Lhis.
  assert (Edl : forall p, (p < 4)%nat -> List.length (nth p his []) = 13%nat /\ Forall valid_id (nth p his []) /\ NoDup (nth p his [])).
  { intros p Hp. pose proof (mapM_nth _ _ _ p 0%nat [] Ehis) as E. rewrite seq_length in E. specialize (E Hp). rewrite seq_nth in E by exact Hp. cbn [Nat.add] in E.
    apply bind_ok in E as (h & E1 & E2). destruct (Hd p Hp) as (tiles & (s & A & B) & C1 & C2 & C3). rewrite A in E1. apply Ok_inj in E1. subst h. rewrite B in E2. apply Ok_inj in E2.
    rewrite <- E2. auto. }
  assert (Fv : Forall (Forall valid_id) his).
  { apply Forall_forall. intros l I. apply (In_nth _ _ []) in I as (p & Hp & <-). apply Edl. lia. }
  apply okr_bind; [now apply okr_deal_all|]. intros [[hts povs] rem] Edeal.
  apply okr_bind; [apply okr_tile2idx; unfold valid_id in Vi; lia|]. intros di Edi. apply tile2idx_ok in Edi. subst di. cbv zeta.
  apply okr_bind.
  { unfold fill_hands. apply okr_bind.
    - rewrite (proj2 (forallb_forall _ _)); [apply okr_ok|]. intros l I. apply (In_nth _ _ []) in I as (p & Hp & <-). apply Nat.eqb_eq. unfold row.
      rewrite (proj1 (Edl p ltac:(lia))), (proj1 (Edl 0%nat ltac:(lia))). reflexivity.
    - intros _ _. apply okr_mapM. eapply Forall_impl; [|exact Fv]. intros l V. apply okr_bind; [|intros; apply okr_ok]. apply okr_mapM. eapply Forall_impl; [|exact V].
      intros x Vx. apply okr_py_index. unfold valid_id in Vx. lia. }
  intros hands Ehands. unfold fill_hands in Ehands. apply bind_ok in Ehands as (u5 & _ & Ehands).
  pose proof (mapM_length _ _ _ Ehands) as Lhands. rewrite Lhis in Lhands.
  assert (Eh : forall p, (p < 4)%nat -> row hands p = vsets (repeat 0 136) (map tnat (nth p his [])) 1).
  { intros p Hp. pose proof (mapM_nth _ _ _ p [] [] Ehands ltac:(lia)) as E. apply bind_ok in E as (ks & E1 & E2).
    apply Ok_inj in E2. unfold row. rewrite <- E2. f_equal.
    clear - E1. apply mapM_ok in E1. induction E1 as [|x y l l' Hx _ IH]; [reflexivity|]. cbn [map]. f_equal; [|exact IH].
    symmetry. now apply py_index_tid in Hx. }
  assert (Nd : forall p, (p < 4)%nat -> NoDup (map tid (nth p his []))).
  { intros p Hp. destruct (Edl p Hp) as (_ & V & E). now rewrite (map_tid_valid _ V). }
  apply okr_bind.
  { apply okr_passert, forallb_forall. intros h I. apply (In_nth _ _ []) in I as (p & Hp & <-). rewrite Lhands in Hp. change (nth p hands []) with (row hands p).
    apply Z.eqb_eq. rewrite (Eh p Hp), vsets_sum.
    - rewrite vsum_repeat0, map_length, (proj1 (Edl p Hp)). reflexivity.
    - rewrite map_tnat. apply nodup_map_in; [|now apply Nd].
      intros x y Ix Iy Q. apply in_map_iff in Ix as (x' & <- & _). apply in_map_iff in Iy as (y' & <- & _). pose proof (tid_range x'). pose proof (tid_range y'). lia.
    - rewrite repeat_length. apply Forall_map, Forall_forall. intros; apply tnat_lt.
    - intros k _. unfold vget. apply nth_repeat. }
  intros _ _. apply okr_bind.
  { apply okr_passert, Z.eqb_eq, max_one.
    - apply Forall_forall. intros x I. apply in_concat in I as (h & I & J). apply (In_nth _ _ []) in I as (p & Hp & <-). rewrite Lhands in Hp. change (nth p hands []) with (row hands p) in J.
      rewrite (Eh p Hp) in J. apply (In_nth _ _ 0) in J as (k & Hk & <-). rewrite length_vsets, repeat_length in Hk. change (nth k ?v 0) with (vget v k).
      rewrite vget_vsets by (rewrite repeat_length; exact Hk). destruct (existsb _ _); [now right|left]. unfold vget. apply nth_repeat.
    - destruct (Edl 0%nat ltac:(lia)) as (L13 & V & _). destruct (nth 0 his []) as [|t l] eqn:El; [discriminate L13|].
      pose proof (vsets_holds _ (Nd 0%nat ltac:(lia))) as (Lv & _ & _ & Hv). rewrite <- (Eh 0%nat) in Hv, Lv by lia. inversion V as [|? ? Vt _]. unfold valid_id in Vt.
      destruct (Hv t ltac:(lia)) as [Q _]. rewrite El in Q. cbn [map In] in Q. rewrite tid_id in Q by lia. specialize (Q (or_introl eq_refl)).
      apply in_concat. exists (row hands 0). split; [unfold row; apply nth_In; lia|]. rewrite <- Q. unfold vget. apply nth_In. rewrite Lv. lia. }
  intros _ _. apply okr_bind; [|intros; apply okr_ok].
  apply okr_passert, Z.eqb_eq. pose proof (deal_all_spec his REMAINING_TILES _ eq_refl Edeal) as (M1 & M2 & M3 & M4 & M5 & M6).
  rewrite (vsum_index (firstn 34 _)). rewrite firstn_length, length_vadds, M5. change (Nat.min 34 37) with 34%nat.
  rewrite (vsum_ext _ (fun k => vget REMAINING_TILES k + (-1) * (num k (map tid (nth 0 his [])) + num k (map tid (nth 1 his [])) +
       num k (map tid (nth 2 his [])) + num k (map tid (nth 3 his [])) + num k [tid ind]))).
  2:{ intros k Hk. apply in_seq in Hk. rewrite vget_firstn by lia. rewrite vget_tix by (try exact M5; lia).
        destruct (M6 k ltac:(lia)) as [_ ->]. rewrite num_all_dealt4 by exact Lhis. lia. }
  rewrite vsum_map_add, vsum_map_scale, !vsum_map_add.
  assert (TR : forall l, Forall (fun x => 0 <= x < 136) (map tid l)).
  { intros l. apply Forall_map, Forall_forall. intros; apply tid_range. }
  rewrite !RoundInit.sum_num by first [apply TR | apply (TR [ind])].
  rewrite !map_length, !(fun p H => proj1 (Edl p H)) by lia. reflexivity.
Qed.

Lemma fair_proper e0 : fair_deal e0 -> proper_deal e0.
Proof.
  intros (Ht & T & D & S & Hd & N). repeat (split; [assumption|]). intros p Hp. destruct (Hd p Hp) as (tiles & (st & A & B) & L & V). exists tiles.
  split; [exists st; auto|]. split; [exact L|]. split; [exact V|]. inversion N as [|? ? _ N']. pose proof (dealt_nodup e0 p N' Hp) as Q. unfold dealt in Q. rewrite A, B in Q. now rewrite (map_tid_valid _ V) in Q.
Qed.
Lemma legal_init go e0 : fair_deal e0 -> exists n s0, init_round go e0 = Ok (n, s0).
Proof. intros F. now apply proper_init, fair_proper. Qed.

Lemma fair_scores e0 : fair_deal e0 -> List.length (initial_scores e0) = 4%nat.
Proof. intros (_ & (scores & (st & T1 & T2) & T3) & _). unfold initial_scores. now rewrite T1, T2. Qed.

(** ** Rounds and logs *)
Lemma run_events_intro L n evs results : Forall (fun e => is_result e = false) evs -> (match results with [] => False | e :: _ => is_result e = true end) ->
  forall s s', foldM (step L n) s evs = Ok s' -> run_events L n s (evs ++ results) = Ok (s', Some results).
Proof.
  intros F Re. induction F as [|ev evs He _ IH]; intros s s' H.
  - cbn in H. apply Ok_inj in H. subst s'. destruct results as [|e r]; [destruct Re|]. cbn. now rewrite Re.
  - cbn [app foldM run_events] in *. rewrite He. apply bind_ok in H as (s1 & E & H). rewrite E. cbn [bind]. now apply IH.
Qed.
Lemma legal_round_ok L go e0 evs pls results : answers L -> fair_deal e0 -> events_of evs pls -> by_the_rules e0 pls -> results <> [] -> Forall scored results ->
  okr (process_round L go (e0 :: evs ++ results)).
Proof.
  intros An Fd Ev B Nr Fs. destruct (legal_init go e0 Fd) as (n & s0 & E0). destruct (legal_runs L go e0 n s0 An E0 (fair_scores e0 Fd) pls B evs Ev) as (s & R & _).
  pose proof R as (s0' & E0' & Es & Ep). rewrite E0 in E0'. apply Ok_inj, pair_equal_spec in E0' as [_ <-].
  assert (Re : forall e, scored e -> is_result e = true) by (intros e [H _]; now apply result_iff).
  cbn [process_round]. rewrite E0. cbn [bind].
  rewrite (run_events_intro L n evs results) with (s' := s).
  - cbn [bind]. apply okr_bind.
    { apply okr_mapM. eapply Forall_impl; [|exact Fs]. intros e Hs. unfold check_result. apply okr_bind; [apply okr_passert; now apply Re|]. intros _ _.
      destruct Hs as (_ & l & st & H1 & H2). rewrite H1. cbn [bind]. rewrite H2. apply okr_ok. }
    intros _ _. destruct Fd as (_ & _ & _ & _ & _ & N). destruct (legal_counts _ _ _ _ _ _ _ R N B) as [C1 C2].
    rewrite C1, C2. cbn [passert bind]. apply okr_ok.
  - apply Forall_forall. intros e I. assert (J : In (play_of e) (map Some pls)) by (rewrite <- Ep; now apply in_map).
    apply in_map_iff in J as (a & J & _). symmetry in J. exact (play_not_result _ _ J).
  - destruct results as [|e r]; [congruence|]. inversion Fs. now apply Re.
  - exact Es.
Qed.

(** Tags that belong to the round they are in. *)
Definition plain (e : event) : Prop := skipped_tag (e_tag e) = false /\ String.eqb (e_tag e) "BYE" = false /\ String.eqb (e_tag e) "INIT" = false.
Lemma play_plain e a : play_of e = Some a -> plain e.
Proof.
  intros P. unfold plain. destruct (skipped_tag (e_tag e)) eqn:S.
  { exfalso. apply skipped_header in S. unfold header_tag in S. unfold play_of in P. destruct S as [S|[S|[S|[S|S]]]]; rewrite S in P; cbn in P; discriminate P. }
  split; [reflexivity|]. destruct (String.eqb_spec (e_tag e) "BYE") as [E|_]; [unfold play_of in P; rewrite E in P; cbn in P; discriminate P|].
  destruct (String.eqb_spec (e_tag e) "INIT") as [E|_]; [unfold play_of in P; rewrite E in P; cbn in P; discriminate P|]. split; reflexivity.
Qed.
Lemma result_plain e : result_event e -> plain e.
Proof. intros [E|E]; unfold plain; rewrite E; repeat split. Qed.
Lemma legal_tags r : legal_round r -> exists e0 rest, r = e0 :: rest /\ e_tag e0 = "INIT"%string /\ Forall plain rest.
Proof.
  intros (e0 & evs & pls & results & -> & Fd & Ev & _ & _ & Fs). exists e0, (evs ++ results). split; [reflexivity|]. split; [apply Fd|]. apply Forall_app. split.
  - apply Forall_forall. intros e I. assert (J : In (play_of e) (map Some pls)) by (rewrite <- Ev; now apply in_map).
    apply in_map_iff in J as (a & J & _). symmetry in J. exact (play_plain _ _ J).
  - eapply Forall_impl; [|exact Fs]. intros e [H _]. now apply result_plain.
Qed.
Lemma group_keep evs : forall cur, group evs cur = group (filter keep evs) cur.
Proof.
  induction evs as [|e evs IH]; intros cur; [reflexivity|]. cbn [group filter]. unfold keep at 1. destruct (skipped_tag (e_tag e)) eqn:S; cbn [negb]; [apply IH|].
  cbn [group]. rewrite S. destruct (String.eqb (e_tag e) "BYE"); [reflexivity|]. destruct (String.eqb (e_tag e) "INIT"); [now rewrite IH|]. destruct cur; [apply IH|reflexivity].
Qed.
Lemma group_plain rest : forall l tail, Forall plain rest -> group (rest ++ tail) (Some l) = group tail (Some (l ++ rest)).
Proof.
  induction rest as [|e rest IH]; intros l tail F; [now rewrite app_nil_r|]. inversion F as [|? ? (P1 & P2 & P3) F']. subst. cbn [app group]. rewrite P1, P2, P3, IH by exact F'.
  now rewrite <- app_assoc.
Qed.
Lemma group_rounds rounds : Forall legal_round rounds -> (forall l, group (List.concat rounds) (Some l) = Ok (l :: rounds)) /\ group (List.concat rounds) None = Ok rounds.
Proof.
  induction 1 as [|r rounds Hr _ [IH _]]; [split; reflexivity|]. destruct (legal_tags r Hr) as (e0 & rest & -> & T & F). cbn [List.concat app group].
  assert (Q : skipped_tag (e_tag e0) = false /\ String.eqb (e_tag e0) "BYE" = false /\ String.eqb (e_tag e0) "INIT" = true) by (rewrite T; repeat split).
  destruct Q as (-> & -> & ->). rewrite group_plain by exact F. cbn [app]. rewrite IH. split; reflexivity.
Qed.
Lemma filter_same {A} (f g : A -> bool) l : (forall x, f x = g x) -> filter f l = filter g l.
Proof. intros H. induction l as [|x l IH]; [reflexivity|]. cbn. now rewrite H, IH. Qed.
Lemma log_groups root rounds : log_of root rounds -> Forall legal_round rounds -> group (traverse root) None = Ok rounds.
Proof.
  intros (kept & Lo & K) F.
  assert (Q : filter kept (traverse root) = filter keep (traverse root)).
  { apply filter_same. intros e. unfold keep. specialize (K e). pose proof (skipped_header (e_tag e)) as H. destruct (kept e), (skipped_tag (e_tag e)); cbn [negb]; try reflexivity; exfalso; tauto || (destruct K as [_ K]; assert (false = true) by (apply K; intros X; apply H in X; discriminate X); discriminate). }
  rewrite group_keep, <- Q, <- Lo. exact (proj2 (group_rounds rounds F)).
Qed.
Lemma legal_log L root go rounds : answers L -> log_type root go -> supported go -> log_of root rounds -> Forall legal_round rounds -> okr (process L root).
Proof.
  intros An (g & t & Eg & Et & Ei) Su Lo F. unfold process, get_rounds. rewrite Eg, Et, Ei. cbn [bind].
  rewrite (log_groups root rounds Lo F). cbn [bind].
  apply supported_flags in Su as (-> & -> & -> & ->). cbn [bind Z.eqb Pos.eqb].
  apply okr_bind; [|intros; apply okr_ok]. apply okr_mapM. eapply Forall_impl; [|exact F].
  intros r (e0 & evs & pls & results & -> & Fd & Ev & B & Nr & Fs). now apply (legal_round_ok L go e0 evs pls results).
Qed.
