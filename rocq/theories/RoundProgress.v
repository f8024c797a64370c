(** A play whose side conditions hold is processed without an exception. *)
From Coq Require Import ZArith List Bool String Ascii Lia PeanoNat.
From Verif Require Import Base Constants Naki Decision Tokens GameInfo Agari Process VecLemmas
  SpecMeld SpecTokens SpecRound SpecDecision SpecTurn SpecLabels NakiProofs NakiLemmas NakiCore NakiLemmas2 TokensLemmas DecisionProofs DecisionLemmas
  RoundLemmas RoundInv RoundTiles RoundInit RoundBook RoundFlags RoundSplit RoundHalf RoundFacts RoundQuery RoundCount RoundLabels RoundMelds.
Import ListNotations.
Open Scope Z_scope.

Definition okr {A} (m : res A) : Prop := exists a, m = Ok a.
Lemma okr_ok {A} (a : A) : okr (Ok a).
Proof. now exists a. Qed.
Lemma okr_bind {A B} (m : res A) (k : A -> res B) : okr m -> (forall a, m = Ok a -> okr (k a)) -> okr (bind m k).
Proof. intros [a E] H. rewrite E. cbn [bind]. auto. Qed.
Lemma okr_passert b : b = true -> okr (passert b).
Proof. intros ->. apply okr_ok. Qed.
Lemma okr_mapM {A B} (f : A -> res B) l : Forall (fun x => okr (f x)) l -> okr (mapM f l).
Proof.
  induction 1 as [|x l [y E] _ [r IH]]; [apply okr_ok|]. cbn [mapM]. rewrite E, IH. apply okr_ok.
Qed.
Lemma okr_py_index n i : - Z.of_nat n <= i < Z.of_nat n -> okr (py_index n i).
Proof.
  intros H. unfold py_index. destruct (Z.leb_spec 0 i), (Z.ltb_spec i (Z.of_nat n)); cbn [andb]; try lia; try apply okr_ok.
  destruct (Z.leb_spec (- Z.of_nat n) i), (Z.ltb_spec i 0); cbn [andb]; try lia; apply okr_ok.
Qed.
Lemma okr_tile2idx t : -136 <= t < 136 -> okr (tile2idx t).
Proof. intros H. unfold tile2idx. apply okr_bind; [apply okr_py_index; exact H|]. intros k _. apply okr_ok. Qed.
Lemma okr_pset l i v : - Z.of_nat (List.length l) <= i < Z.of_nat (List.length l) -> okr (pset l i v).
Proof. intros H. unfold pset. apply okr_bind; [apply okr_py_index; exact H|]. intros k _. apply okr_ok. Qed.

(** The libraries answer. *)
Definition answers (L : libs) : Prop := (forall q, exists b, l_agari L q = Ok b) /\ (forall h, exists d, l_shanten L h = Ok d).

Lemma okr_meld c : (exists e, get_exposed c = Ok e) -> okr (lib_meld_of c).
Proof.
  intros [e He]. unfold get_exposed in He. unfold lib_meld_of.
  destruct (is_chi c); [apply okr_ok|]. destruct (is_pon c); [apply okr_ok|]. destruct (is_kakan c); [apply okr_ok|].
  destruct (is_minkan c); [apply okr_ok|]. destruct (is_ankan c); [apply okr_ok|discriminate].
Qed.
Lemma okr_melds l : Forall good_meld l -> okr (mapM (fun nk => lib_meld_of (nk_code nk)) l).
Proof. intros H. apply okr_mapM. eapply Forall_impl; [|exact H]. intros m (_ & E & _). now apply okr_meld. Qed.

Definition melds_fine (ms : list (list naki)) : Prop := forall p, (p < 4)%nat -> Forall good_meld (row ms p).

Lemma okr_ron L a pl htf ms su t ck ha rn : answers L -> melds_fine ms -> -136 <= t < 136 ->
  okr (evaluate_ron (l_agari L) a pl htf ms su t ck ha rn).
Proof.
  intros [An _] Mf Ht. unfold evaluate_ron. apply okr_bind; [now apply okr_tile2idx|]. intros idx _. cbv zeta.
  apply okr_bind; [|intros; apply okr_ok]. apply okr_mapM. apply Forall_forall. intros p Hp. apply in_seq in Hp.
  destruct (_ =? pl); [apply okr_ok|]. unfold ron_for. destruct (truthy _); [apply okr_ok|].
  destruct (hand_tensor2strs _) as [[[man pin] sou] hon]. apply okr_bind; [apply okr_melds, Mf; lia|]. intros ml _.
  apply okr_bind; [apply An|]. intros b _. apply okr_ok.
Qed.
Lemma okr_tsumo L a p htf ms t ha ri te ch : answers L -> Forall good_meld (row ms p) -> okr (evaluate_tsumo (l_agari L) a p htf ms t ha ri te ch).
Proof.
  intros [An _] Mf. unfold evaluate_tsumo. destruct (hand_tensor2strs _) as [[[man pin] sou] hon].
  apply okr_bind; [now apply okr_melds|]. intros ml _. apply okr_bind; [apply An|]. intros b _. apply okr_ok.
Qed.
Lemma okr_reach L p s : answers L -> okr (reach_candidates L p s).
Proof.
  intros [_ An]. unfold reach_candidates. destruct (_ && _); [|apply okr_ok]. apply okr_bind; [apply An|]. intros d _. apply okr_ok.
Qed.
Lemma okr_ankan p h : okr (ankan_candidates p h).
Proof. unfold ankan_candidates. apply okr_mapM, Forall_forall. intros i _. apply okr_bind; [apply okr_ok|]. intros nk _. apply okr_ok. Qed.
Lemma okr_kakan p h l : Forall good_meld l -> okr (kakan_candidates p h l).
Proof.
  intros F. unfold kakan_candidates. apply okr_bind; [|intros; apply okr_ok]. apply okr_mapM. eapply Forall_impl; [|exact F].
  intros m (_ & _ & R). cbn beta. destruct (is_pon (nk_code m)) eqn:Ep; [|apply okr_ok]. cbv zeta.
  destruct (pon_tiles _ Ep) as (H0 & ex & a & _ & Ty & Ne & Sh). set (t := 9 * p_color (pattern_pon (nk_code m)) + p_number (pattern_pon (nk_code m))) in *.
  assert (Ht : t < 136).
  { destruct ex as [|x ex]; [congruence|]. rewrite Sh in R. inversion R as [|? ? Rx _]. subst. inversion Ty as [|? ? Tx _]. subst.
    rewrite tile_type_div in Tx. assert (x / 4 < 34) by (apply Z.div_lt_upper_bound; lia). lia. }
  apply okr_bind; [apply okr_py_index; lia|]. intros k _. destruct (_ =? 1); [|apply okr_ok].
  apply okr_bind; [|intros; apply okr_ok]. unfold from_kakan_info. apply okr_bind; [apply okr_ok|]. intros; apply okr_ok.
Qed.

Lemma okr_draw L n s p t : answers L -> (p < 4)%nat -> melds_fine (s_melds s) -> guard (PlDraw (Z.of_nat p) t) s -> okr (draw_step L n s p t).
Proof.
  intros An Hp Mf G. unfold guard in G. rewrite Nat2Z.id in G. destruct G as (Ga & Gt & Gv & Gs).
  unfold draw_step. apply okr_bind.
  - unfold draw_tile. rewrite Ga. apply okr_bind; [apply okr_ok|]. intros _ _. apply okr_bind; [now apply okr_tile2idx|]. intros ti Ei.
    apply tile2idx_ok in Ei. subst ti. apply okr_bind; [apply okr_py_index; lia|]. intros k Ek. apply py_index_tid in Ek. subst k. cbv zeta.
    apply okr_bind; [apply okr_passert, Z.eqb_eq; exact Gv|]. intros _ _. apply okr_bind.
    + apply okr_passert, Z.eqb_eq. rewrite ap_ht, Nat2Z.id in Gs. exact Gs.
    + intros _ _. apply okr_ok.
  - intros s1 E1.
    assert (Em : s_melds s1 = s_melds s).
    { unfold draw_tile in E1. apply bind_ok in E1 as (? & _ & E1). apply bind_ok in E1 as (? & _ & E1). apply bind_ok in E1 as (? & _ & E1).
      cbv zeta in E1. apply bind_ok in E1 as (? & _ & E1). apply bind_ok in E1 as (? & _ & E1). apply Ok_inj in E1. subst s1.
      destruct (truthy _); reflexivity. }
    rewrite Em. pose proof (Mf p Hp) as Mp.
    apply okr_bind; [now apply okr_tsumo|]. intros ag _. apply okr_bind; [now apply okr_reach|]. intros re _.
    apply okr_bind; [apply okr_ankan|]. intros an _. apply okr_bind; [now apply okr_kakan|]. intros ka _. apply okr_ok.
Qed.

Lemma okr_discard2idx w t b : 0 <= t < 37 -> okr (discard2idx w t b).
Proof.
  intros H. unfold discard2idx. apply okr_bind; [|intros; apply okr_ok]. apply okr_passert.
  apply andb_true_intro. split; [apply Z.leb_le|apply Z.ltb_lt]; lia.
Qed.

Lemma okr_discard L n s p t : answers L -> (p < 4)%nat -> wf s -> melds_fine (s_melds s) -> guard (PlDiscard (Z.of_nat p) t) s -> okr (discard_step L n s p t).
Proof.
  intros An Hp W Mf G. unfold guard in G. rewrite Nat2Z.id in G. destruct G as (Ga & Gc & Gt & Gv & Gso & Gs).
  unfold discard_step. destruct (s_acquired s) as [acq|]; [|congruence]. apply okr_bind; [apply okr_ok|]. intros a _.
  apply okr_bind. { apply okr_passert. destruct Gc as [->| ->]; [reflexivity|apply orb_true_r]. } intros _ _. cbv zeta.
  apply okr_bind; [now apply okr_tile2idx|]. intros ti Ei. apply tile2idx_ok in Ei. subst ti.
  apply okr_bind; [apply okr_py_index; lia|]. intros k Ek. apply py_index_tid in Ek. subst k.
  apply okr_bind; [apply okr_passert, Z.eqb_eq; exact Gv|]. intros _ _.
  apply okr_bind. { cbn [s_sobj set_cur]. destruct (s_sobj s); [apply okr_ok|congruence]. } intros so _.
  apply okr_bind. { apply okr_passert, Z.eqb_eq. rewrite ap_ht, Nat2Z.id in Gs. exact Gs. } intros _ _.
  apply okr_bind; [now apply okr_ron|]. intros [htf rons] _.
  pose proof (tix_hd t) as [Hh Hl].
  match goal with |- okr (bind (decision_mask ?pl ?h ?x ?r) _) => destruct (mask_total pl h x r) as (ds & E & _ & Of & _) end.
  - destruct W as (_ & _ & W & _). cbn. unfold upd_row. now rewrite length_upd.
  - lia.
  - rewrite Hh. lia.
  - rewrite E. cbn [bind]. apply okr_bind.
    + apply okr_passert. unfold offered in Of. rewrite Nat2Z.id in Of. rewrite Of. reflexivity.
    + intros _ _. apply okr_bind; [|intros; apply okr_ok]. apply okr_discard2idx. rewrite Hh. lia.
Qed.

Lemma okr_expose p l : forall s, (p < List.length (s_hands s))%nat -> Forall (fun x => -136 <= x < 136) l -> exposable p (row (s_hands s) p) l ->
  okr (foldM (expose_tile p) s l).
Proof.
  induction l as [|e l IH]; intros s Hp F X; [apply okr_ok|]. cbn [foldM]. inversion F as [|? ? Fe Fl]. subst. destruct X as [X1 X2].
  apply okr_bind.
  - unfold expose_tile. apply okr_bind; [apply okr_py_index; exact Fe|]. intros k Ek. apply py_index_tid in Ek. subst k.
    apply okr_bind; [now apply okr_passert, Z.eqb_eq|]. intros _ _. apply okr_bind; [now apply okr_tile2idx|]. intros ti _. apply okr_ok.
  - intros s1 E1. unfold expose_tile in E1. binv E1. apply py_index_tid in E. subst. apply Ok_inj in E1. subst s1.
    apply IH; [cbn; unfold upd_row; now rewrite length_upd|exact Fl|]. cbn [s_hands set_ht set_hands]. unfold upd_row.
    rewrite row_upd, Nat.eqb_refl by exact Hp. exact X2.
Qed.

Lemma okr_naki2idx w c : 0 <= w < 4 -> in_range c -> okr (naki2idx w c).
Proof.
  intros W R. destruct (call_tok w c W R) as (i & A & B). eexists. apply B.
Qed.

Lemma okr_reach1 s w : wf s -> guard (PlReach1 w) s -> okr (reach1_step s w).
Proof.
  intros W (G1 & G2 & G3). unfold reach1_step. apply okr_bind; [now apply okr_passert|]. intros _ _.
  apply okr_bind. { apply okr_passert. destruct (s_acquired s); [reflexivity|congruence]. } intros _ _. cbv zeta.
  apply okr_bind; [|intros; apply okr_ok]. apply okr_pset. cbn [s_ippatsu set_half]. rewrite (wf_ippatsu _ W). exact G3.
Qed.
Lemma okr_reach2idx w : 0 <= w < 4 -> okr (reach2idx w).
Proof. intros H. assert (w = 0 \/ w = 1 \/ w = 2 \/ w = 3) as [->|[->|[->| ->]]] by lia; (eexists; vm_compute; reflexivity). Qed.
Lemma okr_new_dora k : (k < 34)%nat -> okr (new_dora2idx (Z.of_nat k)).
Proof. intros H. do 34 (destruct k as [|k]; [eexists; vm_compute; reflexivity|]). lia. Qed.
Lemma okr_reach2 s w : wf s -> guard (PlReach2 w) s -> okr (reach2_step s w).
Proof.
  intros W (G1 & G2 & G3). destruct W as (_ & _ & _ & _ & _ & _ & _ & _ & _ & _ & _ & L1 & L2 & L3 & L4 & _).
  unfold reach2_step. apply okr_bind; [now apply okr_passert|]. intros _ _.
  apply okr_bind; [apply okr_pset; lia|]. intros re _. cbv zeta. cbn [s_scores set_kyotaku set_reaches].
  apply okr_bind. { unfold padd. apply okr_bind; [apply okr_py_index; lia|]. intros; apply okr_ok. } intros sc _.
  apply okr_bind.
  { cbn [s_cycles s_menzen s_dreaches set_scores set_kyotaku set_reaches]. destruct (_ && _); [apply okr_pset; lia|apply okr_ok]. }
  intros dr _. apply okr_bind; [now apply okr_reach2idx|]. intros tok _. apply okr_bind; [|intros; apply okr_ok].
  apply okr_pset. cbn [s_ippatsu add_token set_tokens set_dreaches set_scores set_kyotaku set_reaches]. lia.
Qed.
Lemma okr_dora s t : -136 <= t < 136 -> okr (dora_step s t).
Proof.
  intros H. unfold dora_step. apply okr_bind; [now apply okr_tile2idx|]. intros ti E. apply tile2idx_ok in E. subst ti. cbv zeta.
  apply okr_bind; [|intros; apply okr_ok]. destruct (tix_hd t) as [-> Hl]. now apply okr_new_dora.
Qed.

Lemma melds_fine_app ms p nk : List.length ms = 4%nat -> good_meld nk -> melds_fine ms -> melds_fine (upd ms p (fun l => l ++ [nk])).
Proof.
  intros L G M q Hq. destruct (Nat.lt_ge_cases p 4) as [Hp|Hp]; [|rewrite upd_out by lia; auto].
  rewrite row_upd by lia. destruct (Nat.eqb p q); [|auto]. apply Forall_app. split; [auto|constructor; [exact G|constructor]].
Qed.
Lemma melds_fine_drop ms p t : List.length ms = 4%nat -> melds_fine ms -> melds_fine (upd ms p (drop_pon t)).
Proof.
  intros L M q Hq. destruct (Nat.lt_ge_cases p 4) as [Hp|Hp]; [|rewrite upd_out by lia; auto].
  rewrite row_upd by lia. destruct (Nat.eqb p q); [|auto]. apply drop_pon_Forall. auto.
Qed.

Lemma kakan_exposes c : in_range c -> is_kakan c = true -> forall ex a, get_exposed c = Ok (ex, a) -> ex <> [].
Proof.
  intros R _ ex a E. destruct (meld_possible c ex a R E) as (k & _ & _ & _ & N). intros ->.
  destruct k, a; cbn [all_tiles List.length app] in N; destruct N as (N1 & N2 & _); congruence.
Qed.

Lemma okr_call L n s w c nk : answers L -> wf s -> melds_fine (s_melds s) -> in_range c -> mk_naki c = Ok nk -> guard (PlCall w c) s -> okr (naki_step L n s nk w).
Proof.
  intros An W Mf R Hn G. destruct G as (Hw & _ & (e & He) & Gc & Gt & Gx). destruct e as [ex acq].
  assert (Esh : shown_by c = ex) by (unfold shown_by; now rewrite He).
  assert (Ecl : claimed_by c = match acq with Some a => [a] | None => [] end) by (unfold claimed_by; rewrite He; now destruct acq).
  assert (Gn : good_meld nk) by (unfold good_meld; rewrite (mk_naki_code _ _ Hn); eauto).
  rewrite Esh in Gt, Gx. rewrite Ecl in Gt. apply Forall_app in Gt as [Gt Ga].
  destruct W as (Lh & _ & _ & _ & _ & _ & _ & _ & _ & _ & _ & _ & _ & _ & _ & Lm).
  unfold naki_step. rewrite (mk_naki_code _ _ Hn). cbv zeta.
  apply okr_bind; [apply okr_py_index; lia|]. intros p Ep.
  assert (p = Z.to_nat w). { apply py_index_mod in Ep as [-> _]. change (Z.of_nat 4) with 4. now rewrite Z.mod_small by lia. } subst p. clear Ep.
  apply okr_bind; [now apply okr_naki2idx|]. intros tok _.
  apply okr_bind.
  { destruct (is_ankan c || is_kakan c); (apply okr_bind; [apply okr_passert; exact Gc|]; intros; apply okr_ok). }
  intros s1 E1.
  assert (H1 : s_hands s1 = s_hands s /\ s_melds s1 = upd (s_melds s) (Z.to_nat w) (fun l => l ++ [nk])).
  { destruct (is_ankan c || is_kakan c); apply bind_ok in E1 as (? & _ & E1); apply Ok_inj in E1; subst s1; split; reflexivity. }
  clear E1. destruct H1 as [H1 H2]. rewrite He. cbn [bind].
  apply okr_bind. { apply okr_mapM. eapply Forall_impl; [|exact Gt]. intros x Hx. now apply okr_tile2idx. } intros eidx _.
  rewrite set_rtsumo_if. set (s2 := set_rtsumo _ s1). 
  apply okr_bind. { apply okr_expose; [cbn [s_hands set_pov]; unfold s2; cbn [s_hands set_rtsumo]; rewrite H1, Lh; lia|exact Gt|]. cbn [s_hands set_pov]. unfold s2. cbn [s_hands set_rtsumo]. now rewrite H1. }
  intros s3 E3.
  assert (H3 : s_melds s3 = s_melds s1).
  { apply foldM_expose in E3 as [-> _]; [|cbn [s_hands set_pov]; unfold s2; cbn [s_hands set_rtsumo]; rewrite H1, Lh; lia]. rewrite fold_expose1. reflexivity. }
  clear E3.
  apply okr_bind.
  { destruct acq as [a|]; [|apply okr_ok]. inversion Ga as [|? ? Ra _]. subst. apply okr_bind; [now apply okr_tile2idx|]. intros; apply okr_ok. }
  intros s4 E4. assert (H4 : s_melds s4 = s_melds s3).
  { destruct acq as [a|]; [apply bind_ok in E4 as (? & _ & E4)|]; apply Ok_inj in E4; subst s4; reflexivity. }
  clear E4. apply okr_bind; [|intros; apply okr_ok].
  destruct (is_kakan c) eqn:Ek; [|apply okr_ok]. pose proof (kakan_exposes c R Ek _ _ He) as Nx. destruct ex as [|x ex]; [congruence|].
  inversion Gt as [|? ? Rx _]. subst.
  apply okr_bind; [|intros [htf rons] _; apply okr_ok]. apply okr_ron; [exact An| |exact Rx].
  match goal with |- melds_fine (s_melds (set_melds (upd (s_melds ?y) _ _) _)) => assert (Hy : s_melds y = s_melds s4) end.
  { destruct (negb (from_who c =? 0)); match goal with |- s_melds (if any_set ?i then _ else _) = _ => destruct (any_set i) end; reflexivity. }
  cbn [s_melds set_melds]. rewrite Hy, H4, H3, H2. apply melds_fine_drop; [now rewrite length_upd|]. now apply melds_fine_app.
Qed.

Lemma progress L n s a : answers L -> wf s -> seated a -> melds_fine (s_melds s) -> guard a s ->
  match a with PlCall _ c => in_range c | _ => True end -> okr (astep L n s a).
Proof.
  intros An W S Mf G R. destruct a as [w t|w t|w c|w|w|t]; cbn [astep].
  - apply okr_draw; [exact An|cbn in S; lia|exact Mf|]. cbn in S. now rewrite Z2Nat.id by lia.
  - apply okr_discard; [exact An|cbn in S; lia|exact W|exact Mf|]. cbn in S. now rewrite Z2Nat.id by lia.
  - pose proof G as (_ & (nk & Hn) & _ & Gc & _).
    apply okr_bind. { apply okr_passert. rewrite cur_during_top, cur_post_top in Gc. destruct (s_cur s); [reflexivity|]. destruct (is_ankan c || is_kakan c); discriminate Gc. }
    intros _ _. rewrite Hn. cbn [bind]. now apply (okr_call L n s w c nk).
  - apply okr_bind; [|intros _ _; now apply okr_reach1]. apply okr_passert. destruct G as (G & _). rewrite cur_during_top in G. now destruct (s_cur s).
  - apply okr_bind; [|intros _ _; now apply okr_reach2]. apply okr_passert. destruct G as (G & _). rewrite cur_post_top in G. now destruct (s_cur s).
  - apply okr_dora. exact G.
Qed.
