(** The melds of the players, and the kans offered on a draw (C38). *)
From Coq Require Import ZArith List Bool String Ascii Lia PeanoNat.
From Verif Require Import Base Constants Naki Decision Tokens GameInfo Agari Process VecLemmas
  SpecMeld SpecTokens SpecRound SpecDecision SpecTurn SpecLabels NakiProofs NakiLemmas NakiCore NakiLemmas2 TokensLemmas DecisionProofs DecisionLemmas
  RoundLemmas RoundInv RoundTiles RoundInit RoundBook RoundFlags RoundSplit RoundHalf RoundFacts RoundQuery RoundCount RoundLabels.
Import ListNotations.
Open Scope Z_scope.

Lemma drop_pon_codes t l : map nk_code (drop_pon t l) = without_pon t (map nk_code l).
Proof. induction l as [|m l IH]; [reflexivity|]. cbn [drop_pon map without_pon]. destruct (_ && _); cbn [map]; congruence. Qed.
Lemma drop_pon_Forall (P : naki -> Prop) t l : Forall P l -> Forall P (drop_pon t l).
Proof. induction 1 as [|m l Hm Hl IH]; [constructor|]. cbn [drop_pon]. destruct (_ && _); [exact Hl|constructor; assumption]. Qed.
Lemma calls_by_app p a b : calls_by p (a ++ b) = calls_by p a ++ calls_by p b.
Proof. unfold calls_by. apply flat_map_app. Qed.

Definition good_meld (m : naki) : Prop :=
  mk_naki (nk_code m) = Ok m /\ (exists e, get_exposed (nk_code m) = Ok e) /\
  Forall (fun x => -136 <= x < 136) (shown_by (nk_code m) ++ claimed_by (nk_code m)).

Definition melds_inv (h : list play) (s : rstate) : Prop :=
  forall p, 0 <= p < 4 -> map nk_code (row (s_melds s) (Z.to_nat p)) = meld_codes p h /\ Forall good_meld (row (s_melds s) (Z.to_nat p)).

Lemma melds_inv_holds L go e0 evs n s pls : runs L go e0 evs n s pls -> melds_inv pls s.
Proof.
  intros R. eapply (runs_inv _ _ _ _ _ _ _ melds_inv) in R; [exact (proj1 R)| | |]; clear.
  - intros s0 In0 p Hp. destruct (in_rest _ _ In0) as (_ & _ & _ & _ & _ & H & _). rewrite H. unfold row. rewrite nth_repeat. split; [reflexivity|constructor].
  - intros h a s W S Hi G p Hp. destruct (Hi p Hp) as [I1 I2]. unfold meld_codes. rewrite calls_by_app, fold_left_app. fold (meld_codes p h).
    rewrite ap_melds. destruct a as [w t|w t|w c|w|w|t]; try (cbn; split; assumption).
    destruct G as (Hw & (nk & En) & He & _ & Hr & _). rewrite En.
    pose proof (mk_naki_code _ _ En) as Hc.
    assert (Gm : good_meld nk) by (unfold good_meld; rewrite Hc; auto).
    assert (Lm : (Z.to_nat w < List.length (s_melds s))%nat).
    { destruct W as (_ & _ & _ & _ & _ & _ & _ & _ & _ & _ & _ & _ & _ & _ & _ & Lm). rewrite Lm. lia. }
    cbv zeta. unfold calls_by. cbn [flat_map]. rewrite app_nil_r.
    assert (Eb : Nat.eqb (Z.to_nat w) (Z.to_nat p) = (w =? p)).
    { destruct (Z.eqb_spec w p) as [->|N]; [apply Nat.eqb_refl|]. apply Nat.eqb_neq. lia. }
    destruct (is_kakan c) eqn:Ek.
    + rewrite row_upd by (rewrite length_upd; exact Lm). rewrite row_upd by exact Lm. rewrite Nat.eqb_refl. rewrite row_upd by exact Lm.
      rewrite Eb. destruct (Z.eqb_spec w p) as [->|N]; [|split; assumption].
      cbn [fold_left]. unfold add_call. rewrite Ek, drop_pon_codes, map_app. cbn [map]. rewrite I1, Hc. split; [reflexivity|].
      apply drop_pon_Forall. apply Forall_app. split; [exact I2|constructor; [exact Gm|constructor]].
    + rewrite row_upd by exact Lm. rewrite Eb. destruct (Z.eqb_spec w p) as [->|N]; [|split; assumption].
      cbn [fold_left]. unfold add_call. rewrite Ek, map_app. cbn [map]. rewrite I1, Hc. split; [reflexivity|].
      apply Forall_app. split; [exact I2|constructor; [exact Gm|constructor]].
  - intros h s s' E Hi p Hp. apply strip_fields in E as (_ & _ & _ & _ & _ & _ & _ & _ & _ & _ & _ & _ & _ & _ & E & _).
    rewrite <- E. now apply Hi.
Qed.

(** The tiles of a pon code. *)
Lemma pop_incl {A} (l : list A) i a r : pop l i = Some (a, r) -> incl r l.
Proof.
  revert i a r. induction l as [|x l IH]; intros [|i] a r; cbn; try discriminate.
  - intros H. injection H as _ <-. intros y Hy. now right.
  - destruct (pop l i) as [[b t]|] eqn:E; [|discriminate]. intros H. injection H as _ <-. apply IH in E. intros y [->|Hy]; [now left|right; auto].
Qed.
Lemma pon_tiles c : is_pon c = true -> let t := 9 * p_color (pattern_pon c) + p_number (pattern_pon c) in
  0 <= t /\ exists ex a, get_exposed c = Ok (ex, a) /\ Forall (fun x => tile_type x = t) ex /\ ex <> [] /\ shown_by c = ex.
Proof.
  intros Hp. assert (Ep : exists ex a, get_exposed c = Ok (ex, a) /\ p_exposed (pattern_pon c) = ex).
  { unfold get_exposed. pose proof Hp as Hp'. unfold is_pon in Hp'. apply andb_prop in Hp' as [Hc _]. apply negb_true_iff in Hc.
    rewrite Hc, Hp. eauto. }
  destruct Ep as (ex & a & He & Ex).
  assert (N : 0 <= Z.shiftr (Z.land c 0xFE00) 9).
  { apply Z.shiftr_nonneg. apply Z.land_nonneg. right. lia. }
  cbv zeta. unfold pattern_pon in *. set (pt := Z.shiftr (Z.land c 0xFE00) 9) in *.
  set (cd := Z.shiftr (Z.land c 0x0060) 5) in *.
  destruct (popz _ _) as [aq rest] eqn:P. cbn [p_color p_number p_exposed] in *. subst rest.
  pose proof (Z.div_pos pt 3 N ltac:(lia)) as N1. pose proof (Z.div_pos _ 9 N1 ltac:(lia)). pose proof (Z.mod_pos_bound (pt / 3) 9 ltac:(lia)).
  split; [lia|]. exists ex, a. split; [exact He|].
  assert (Lw : 0 <= pt mod 3 < 3) by (apply Z.mod_pos_bound; lia).
  set (t := 9 * (pt / 3 / 9) + (pt / 3) mod 9) in *.
  assert (Fl : Forall (fun x => tile_type x = t) (map (fun k => t * 4 + k) (filter (fun k => negb (k =? cd)) [0; 1; 2; 3]))).
  { apply Forall_map. apply Forall_forall. intros k Hk. apply filter_In in Hk as [Hk _]. rewrite tile_type_div.
    assert (0 <= k < 4) by (cbn in Hk; lia). rewrite Z.div_add_l by lia. rewrite Z.div_small by lia. lia. }
  assert (Ln : Nat.le 3 (List.length (map (fun k => t * 4 + k) (filter (fun k => negb (k =? cd)) [0; 1; 2; 3])))).
  { rewrite map_length. cbn [filter]. destruct (0 =? cd) eqn:?, (1 =? cd) eqn:?, (2 =? cd) eqn:?, (3 =? cd) eqn:?; cbn [negb List.length]; lia. }
  revert P Fl Ln. generalize (map (fun k => t * 4 + k) (filter (fun k => negb (k =? cd)) [0; 1; 2; 3])). intros lst P Fl Ln.
  unfold popz in P. destruct (pop lst _) as [[b r]|] eqn:Ep.
  - injection P as <- <-. split.
    + apply Forall_forall. intros x Hx. rewrite Forall_forall in Fl. apply Fl. apply (pop_incl _ _ _ _ Ep). exact Hx.
    + split; [|unfold shown_by; now rewrite He].
      apply RoundCount.pop_len in Ep. intros ->. cbn [List.length] in Ep. lia.
  - injection P as <- <-. split; [exact Fl|]. split; [|unfold shown_by; now rewrite He]. intros ->. cbn in Ln. lia.
Qed.

Lemma type_of_list ex t t' : Forall (fun x => tile_type x = t) ex -> Forall (fun x => tile_type x = t') ex -> ex <> [] -> t = t'.
Proof. intros A B N. destruct ex; [contradiction|]. inversion A; inversion B; congruence. Qed.

Lemma naki_inj p a e b f : NakiDecision p a e = NakiDecision p b f -> a = b.
Proof. now injection 1. Qed.
Lemma draw_half_of x h so sa : s_half (set_cur x (add_half h (set_sobj so sa))) = h :: s_half sa.
Proof. now destruct sa. Qed.

Lemma draw_lists L n s w t s' : wf s -> 0 <= w < 4 -> draw_step L n s (Z.to_nat w) t = Ok s' -> strip s' = strip (apply (PlDraw w t) s) ->
  exists so ag re ank kak i r, s_half s' = DuringTurn w so [ag; re; ank ++ kak] i :: r /\
    ankan_candidates (Z.to_nat w) (row (s_ht s') (Z.to_nat w)) = Ok ank /\
    kakan_candidates (Z.to_nat w) (row (s_hands s') (Z.to_nat w)) (row (s_melds s') (Z.to_nat w)) = Ok kak.
Proof.
  intros W S E Es. assert (Ew : w = Z.of_nat (Z.to_nat w)) by lia.
  apply draw_inv in E as (_ & ag & re & ank & kak & _ & _ & Ha & Hk & Ed); [|lia|exact W].
  destruct (at_draw_fields w t s ltac:(lia)) as (_ & _ & _ & _ & _ & F1 & _ & _ & _ & F2 & F3 & _).
  rewrite F1, F3 in Hk. rewrite F2 in Ha. clear F1 F2 F3.
  apply strip_fields in Es as (G1 & G2 & _ & _ & _ & _ & _ & _ & _ & _ & _ & _ & _ & _ & G3 & _).
  rewrite <- Ew in Ed. rewrite <- G1, <- G3 in Hk. rewrite <- G2 in Ha. clear G1 G2 G3.
  destruct (ap_frame (PlDraw w t) s) as (Fh & _).
  apply (f_equal s_half) in Ed. rewrite draw_half_of in Ed.
  eexists _, ag, re, ank, kak, _, _. split; [exact Ed|]. split; assumption.
Qed.


Lemma closed_kan_facts k : 0 <= k < 34 -> exists nk, from_ankan_info k = Ok nk /\
   spec_kind (nk_code nk) = Some Ankan /\ exists ex, get_exposed (nk_code nk) = Ok (ex, None) /\ Forall (fun x => tile_type x = k) ex /\ ex <> [].
Proof.
  intros Hk0. destruct (ankan_factory k Hk0) as (nk & c & m & ex & E1 & E2 & _ & _ & _ & _ & _ & E3 & E4 & _).
  exists nk. split; [exact E1|]. split; [exact E2|]. exists ex. split; [exact E3|]. subst ex. split; [|discriminate].
  repeat constructor; rewrite tile_type_div; symmetry; [apply (Z.div_unique _ _ _ 0)|apply (Z.div_unique _ _ _ 1)|apply (Z.div_unique _ _ _ 2)|apply (Z.div_unique _ _ _ 3)]; lia.
Qed.
Lemma added_kan_facts k nk : 0 <= k < 34 -> from_kakan_info k 0 = Ok nk ->
   spec_kind (nk_code nk) = Some Kakan /\ exists ex, get_exposed (nk_code nk) = Ok (ex, None) /\ Forall (fun x => tile_type x = k) ex /\ ex <> [].
Proof.
  intros Hk0 Ef. destruct (kakan_factory k 0 Hk0 ltac:(lia)) as (nk' & c & m & e & E1 & E2 & _ & _ & _ & _ & E3 & E4 & _).
  rewrite Ef in E1. apply Ok_inj in E1. subst nk'. split; [exact E2|]. exists [e]. split; [exact E3|]. split; [|discriminate]. constructor; [exact E4|constructor].
Qed.

Lemma ankan_candidates_eq p h : ankan_candidates p h =
  mapM (fun i => nk <- from_ankan_info i ;; Ok (NakiDecision (Z.of_nat p) nk false)) (filter (fun i => hget h i =? 4) (zrange 37)).
Proof. reflexivity. Qed.
Lemma closed_kan_members w h ank : 0 <= w -> (forall j, (j < 37)%nat -> vget h j <= class_size j) ->
  ankan_candidates (Z.to_nat w) h = Ok ank ->
  forall d, In d ank <-> exists k nk, 0 <= k < 34 /\ vget h (Z.to_nat k) = 4 /\ from_ankan_info k = Ok nk /\ d = NakiDecision w nk false.
Proof.
  intros Hw Hc Ha. assert (Ew : w = Z.of_nat (Z.to_nat w)) by lia.
  rewrite ankan_candidates_eq in Ha. rewrite <- Ew in Ha. apply mapM_ok in Ha. remember (zrange 37) as z37 eqn:Ez.
  assert (B : forall l r, Forall2 (fun i d => (nk <- from_ankan_info i ;; Ok (NakiDecision w nk false)) = Ok d) l r ->
      forall d, In d r <-> exists i nk, In i l /\ from_ankan_info i = Ok nk /\ d = NakiDecision w nk false).
  { clear. induction 1 as [|x y l r Hx _ IH]; intros d; [cbn [In]; split; [tauto|intros (i & nk & [] & _)]|].
    apply bind_ok in Hx as (nk & Ef & Hx). apply Ok_inj in Hx. subst y. cbn [In]. rewrite IH. split.
    - intros [<-|(i & nk' & Hi & Hd)]; [exists x, nk; auto|exists i, nk'; auto].
    - intros (i & nk' & [<-|Hi] & Ef' & ->); [left; rewrite Ef in Ef'; apply Ok_inj in Ef'; now subst|right; exists i, nk'; auto]. }
  intros d. rewrite (B _ _ Ha d). split.
  - intros (i & nk & Hi & Ef & ->). apply filter_In in Hi as [Hi Hv]. rewrite Ez in Hi. unfold zrange in Hi. apply in_map_iff in Hi as (j & <- & Hj). apply in_seq in Hj.
    apply Z.eqb_eq in Hv. unfold hget in Hv. rewrite Nat2Z.id in Hv. pose proof (Hc j ltac:(lia)) as Hb.
    rewrite Hv in Hb. unfold class_size in Hb. destruct (Nat.ltb_spec j 34); [|lia].
    exists (Z.of_nat j), nk. rewrite Nat2Z.id. split; [lia|]. split; [exact Hv|]. split; [exact Ef|reflexivity].
  - intros (k & nk & Hk0 & Hv & Ef & ->). exists k, nk. split; [|split; [exact Ef|reflexivity]]. apply filter_In. split.
    + rewrite Ez. unfold zrange. apply in_map_iff. exists (Z.to_nat k). rewrite in_seq. lia.
    + unfold hget. now apply Z.eqb_eq.
Qed.

Lemma added_kan_members w h136 ms kak : 0 <= w -> Forall good_meld ms -> kakan_candidates (Z.to_nat w) h136 ms = Ok kak ->
  forall d, In d kak <-> exists m k nk, In m ms /\ is_pon (nk_code m) = true /\ 0 <= k < 34 /\
      k = 9 * p_color (pattern_pon (nk_code m)) + p_number (pattern_pon (nk_code m)) /\
      vget h136 (Z.to_nat k) = 1 /\ from_kakan_info k 0 = Ok nk /\ d = NakiDecision w nk false.
Proof.
  intros Hw M2 Hk. assert (Ew : w = Z.of_nat (Z.to_nat w)) by lia.
  unfold kakan_candidates in Hk. rewrite <- Ew in Hk. apply bind_ok in Hk as (ds & Hk & Ek). apply Ok_inj in Ek. subst kak. apply mapM_ok in Hk.
  induction Hk as [|m y l r Hm _ IH]; intros d.
  { cbn [List.concat In]. split; [tauto|intros (? & ? & ? & [] & _)]. }
  inversion M2 as [|m' l' Gm M2']; subst m' l'. specialize (IH M2' d). cbn [List.concat]. rewrite in_app_iff, IH. clear IH.
  destruct (is_pon (nk_code m)) eqn:Ep.
  2:{ apply Ok_inj in Hm. subst y. split; [intros [[]|(x & k & nk & Hx & Hr)]; exists x, k, nk; split; [now right|exact Hr]|].
      intros (x & k & nk & [<-|Hx] & Hp & Hr); [congruence|]. right. exists x, k, nk. auto. }
  destruct (pon_tiles _ Ep) as (T0 & ex & a & He & Ft & Ne & Esh). cbv zeta in Hm. set (tt := 9 * _ + _) in *.
  apply bind_ok in Hm as (j & Ej & Hm).
  assert (Tr : tt < 34).
  { destruct Gm as (_ & _ & Fr). rewrite Esh in Fr. apply Forall_app in Fr as [Fr _]. destruct ex as [|x0 ex]; [contradiction|].
    pose proof (Forall_inv Fr) as Hx. pose proof (Forall_inv Ft) as Hy. cbv beta in Hx, Hy. rewrite <- Hy, tile_type_div. apply Z.div_lt_upper_bound; lia. }
  apply py_index_tid in Ej. subst j. unfold tnat, tid in Hm. rewrite Z.mod_small in Hm by lia.
  destruct (vget h136 (Z.to_nat tt) =? 1) eqn:Ev.
  - apply Z.eqb_eq in Ev. apply bind_ok in Hm as (nk0 & En & Hm). apply Ok_inj in Hm. subst y. split.
    + intros [[<-|[]]|(x & k & nk & Hx & Hr)]; [exists m, tt, nk0|exists x, k, nk].
      * split; [now left|]. split; [exact Ep|]. split; [lia|]. split; [reflexivity|]. split; [exact Ev|]. split; [exact En|reflexivity].
      * split; [now right|exact Hr].
    + intros (x & k & nk & [<-|Hx] & Hp & Hk0 & Ek & Hr & Hf & ->).
      * left. left. fold tt in Ek. subst k. rewrite En in Hf. apply Ok_inj in Hf. now subst.
      * right. exists x, k, nk. repeat (split; [assumption|]). reflexivity.
  - apply Z.eqb_neq in Ev. apply Ok_inj in Hm. subst y. split.
    + intros [[]|(x & k & nk & Hx & Hr)]. exists x, k, nk. split; [now right|exact Hr].
    + intros (x & k & nk & [<-|Hx] & Hp & Hk0 & Ek & Hr & Hf & ->); [fold tt in Ek; subst k; contradiction|].
      right. exists x, k, nk. repeat (split; [assumption|]). reflexivity.
Qed.

Lemma exposed_inj c ex a ex' a' : get_exposed c = Ok (ex, a) -> get_exposed c = Ok (ex', a') -> ex = ex' /\ a = a'.
Proof. intros A B. rewrite A in B. apply Ok_inj in B. now injection B. Qed.

Lemma kans_offered w h h136 ms ank kak pls : 0 <= w -> (forall j, (j < 37)%nat -> vget h j <= class_size j) -> Forall good_meld ms ->
  map nk_code ms = meld_codes w pls ->
  ankan_candidates (Z.to_nat w) h = Ok ank -> kakan_candidates (Z.to_nat w) h136 ms = Ok kak ->
  (forall d, In d (ank ++ kak) -> exists nk, d = NakiDecision w nk false /\ (spec_kind (nk_code nk) = Some Ankan \/ spec_kind (nk_code nk) = Some Kakan)) /\
  forall k, 0 <= k < 34 ->
   (offers_call w Ankan k (ank ++ kak) <-> vget h (Z.to_nat k) = 4) /\
   (offers_call w Kakan k (ank ++ kak) <-> has_pon w k pls /\ vget h136 (Z.to_nat k) = 1).
Proof.
  intros Hw Hc M2 M1 Ha Hk. pose proof (closed_kan_members _ _ _ Hw Hc Ha) as A. pose proof (added_kan_members _ _ _ _ Hw M2 Hk) as B.
  pose proof closed_kan_facts as AK. pose proof added_kan_facts as KK. clear Ha Hk Hc M2. split.
  { intros d Hd. apply in_app_iff in Hd as [Hd|Hd].
    - apply A in Hd as (k & nk & Hk0 & _ & Ef & ->). exists nk. split; [reflexivity|]. left.
      destruct (AK k Hk0) as (nk' & Ef' & Sk & _). rewrite Ef in Ef'. apply Ok_inj in Ef'. now subst nk'.
    - apply B in Hd as (m & k & nk & _ & _ & Hk0 & _ & _ & Ef & ->). exists nk. split; [reflexivity|]. right. apply (KK k nk Hk0 Ef). }
  intros k Hk0. split.
  - split.
    + intros (nk & ex & a & Hin & Sk & He & Ft & Ne). apply in_app_iff in Hin as [Hd|Hd].
      * apply A in Hd as (k' & nk1 & Hk' & Hv & Ef & E). apply naki_inj in E. subst nk1. destruct (AK k' Hk') as (nk2 & Ef' & _ & ex' & He' & Ft' & _).
        rewrite Ef in Ef'. apply Ok_inj in Ef'. subst nk2.
        destruct (exposed_inj _ _ _ _ _ He He') as [<- _]. rewrite (type_of_list _ _ _ Ft Ft' Ne). exact Hv.
      * apply B in Hd as (m & k' & nk' & _ & _ & Hk' & _ & _ & Ef & E). apply naki_inj in E. subst nk'. destruct (KK k' nk Hk' Ef) as (Sk' & _).
        rewrite Sk in Sk'. discriminate.
    + intros Hv. destruct (AK k Hk0) as (nk & Ef & Sk & ex & He & Ft & Ne). exists nk, ex, None. split; [|split; [exact Sk|split; [exact He|split; assumption]]].
      apply in_app_iff. left. apply A. exists k, nk. auto.
  - split.
    + intros (nk & ex & a & Hin & Sk & He & Ft & Ne). apply in_app_iff in Hin as [Hd|Hd].
      * apply A in Hd as (k' & nk1 & Hk' & Hv & Ef & E). apply naki_inj in E. subst nk1. destruct (AK k' Hk') as (nk2 & Ef' & Sk' & _).
        rewrite Ef in Ef'. apply Ok_inj in Ef'. subst nk2. rewrite Sk in Sk'. discriminate.
      * apply B in Hd as (m & k' & nk' & Hm & Hp & Hk' & Ek & Hv & Ef & E). apply naki_inj in E. subst nk'. destruct (KK k' nk Hk' Ef) as (_ & ex' & He' & Ft' & _).
        destruct (exposed_inj _ _ _ _ _ He He') as [<- _]. pose proof (type_of_list _ _ _ Ft Ft' Ne) as <-. split; [|exact Hv].
        destruct (pon_tiles _ Hp) as (_ & ex2 & a2 & He2 & Ft2 & Ne2 & _). rewrite <- Ek in Ft2.
        exists (nk_code m), ex2, a2. split; [|split; [exact Hp|split; [exact He2|split; assumption]]]. rewrite <- M1. now apply in_map.
    + intros [(c & ex & a & Hin & Hp & He & Ft & Ne) Hv]. rewrite <- M1 in Hin. apply in_map_iff in Hin as (m & <- & Hm).
      destruct (pon_tiles _ Hp) as (_ & ex2 & a2 & He2 & Ft2 & Ne2 & _). destruct (exposed_inj _ _ _ _ _ He He2) as [<- <-].
      pose proof (type_of_list _ _ _ Ft Ft2 Ne) as Ek.
      destruct (kakan_factory k 0 Hk0 ltac:(lia)) as (nk & _ & _ & _ & E1 & _).
      destruct (KK k nk Hk0 E1) as (Sk & ex3 & He3 & Ft3 & Ne3). exists nk, ex3, None. split; [|split; [exact Sk|split; [exact He3|split; assumption]]].
      apply in_app_iff. right. apply B. exists m, k, nk. split; [exact Hm|]. split; [exact Hp|]. split; [exact Hk0|]. split; [exact Ek|]. split; [exact Hv|]. split; [exact E1|reflexivity].
Qed.

Lemma draw_candidates L go e0 evs n s' pls w t : runs L go e0 evs n s' (pls ++ [PlDraw w t]) ->
  exists so wins riichi calls i r, s_half s' = DuringTurn w so [wins; riichi; calls] i :: r /\
  (forall d, In d calls -> exists nk, d = NakiDecision w nk false /\ (spec_kind (nk_code nk) = Some Ankan \/ spec_kind (nk_code nk) = Some Kakan)) /\
  forall k, 0 <= k < 34 ->
   (offers_call w Ankan k calls <-> vget (vec (s_ht s') w) (Z.to_nat k) = 4) /\
   (offers_call w Kakan k calls <-> has_pon w k pls /\ vget (vec (s_hands s') w) (Z.to_nat k) = 1).
Proof.
  intros R. destruct (runs_snoc _ _ _ _ _ _ _ _ R) as (evs1 & ev & s & _ & R1 & W & S & E & G & Es).
  cbn [seated] in S. cbn [astep] in E.
  destruct (hands_exact _ _ _ _ _ _ _ w R S) as (hl & _ & _ & _ & _ & Hc & _).
  destruct (melds_inv_holds _ _ _ _ _ _ _ R w S) as [M1 M2].
  destruct (draw_lists _ _ _ _ _ _ W S E Es) as (so & ag & re & ank & kak & ii & rr & Ed & Ha & Hk). clear E Es G.
  exists so, ag, re, (ank ++ kak), ii, rr. split; [exact Ed|].
  assert (Mc : meld_codes w (pls ++ [PlDraw w t]) = meld_codes w pls).
  { unfold meld_codes. rewrite calls_by_app. cbn [calls_by flat_map]. now rewrite app_nil_r. }
  rewrite Mc in M1. unfold vec in *. clear Mc R R1 W Ed.
  apply (kans_offered w _ _ (row (s_melds s') (Z.to_nat w)) ank kak pls (proj1 S)); try assumption.
  intros j Hj. destruct (Hc j Hj) as [Hv Hb]. rewrite Hv. exact (proj2 Hb).
Qed.
