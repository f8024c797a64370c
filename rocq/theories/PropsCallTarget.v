(** C131: which claimed pons are targets of samples.
    [plays_of_round], [r_label], [r_player]: SpecTensor.v; [spec_kind], [in_range], [unused_clear]: SpecMeld.v;
    [consistent]: SpecTurn.v; [concealed], [of_type]: SpecOffers.v; [last_discarded]: PropsKanLabel.v. *)
From Coq Require Import ZArith List Bool String Ascii Lia PeanoNat Permutation.
From Verif Require Import Base Constants Naki Decision Tokens GameInfo Agari Process VecLemmas
  SpecMeld SpecTokens SpecRound SpecDecision SpecTurn SpecLabels SpecOffers NakiProofs NakiLemmas NakiCore NakiLemmas2 TokensLemmas DecisionProofs DecisionLemmas DecisionExact
  RoundLemmas RoundInv RoundTiles RoundInit RoundBook RoundFlags RoundSplit RoundHalf RoundFacts RoundQuery RoundCount RoundLabels RoundMelds RoundOffers AgariLemmas TurnFacts
  Tensor SpecTensor SpecWinLabel TensorLemmas TensorRound PropsTensor PropsTurn RoundExamples PropsKanLabel PropsKanTarget.
Import ListNotations.
Open Scope Z_scope.

(** Calls that claim a discard. *)
Definition claims (c : Z) : Prop := spec_kind c = Some Chi \/ spec_kind c = Some Pon \/ spec_kind c = Some Minkan.
(** What the game guarantees of them: the code is one the game server writes, the tile it
    claims is the tile discarded last, and a chi claims from the player on the left. *)
Definition claims_ok (pls : list play) : Prop := forall pre w c post, pls = pre ++ PlCall w c :: post -> claims c ->
  in_range c /\ unused_clear c /\ (spec_kind c = Some Chi -> from_who c = 3) /\ exists ex t, get_exposed c = Ok (ex, Some t) /\ last_discarded pre = Some t.

(** ** Codes *)
Lemma claim_sweep : sweep 16 (fun c => implb ((okind_eqb (spec_kind c) (Some Chi) || okind_eqb (spec_kind c) (Some Pon) || okind_eqb (spec_kind c) (Some Minkan)) && in_rangeb c)
  (negb (is_ankan c || is_kakan c) && match get_exposed c with Ok (_, Some a) => (0 <=? a) && (a <? 136) | _ => true end)) = true.
Proof. vm_cast_no_check (eq_refl true). Qed.
Lemma claim_facts c : claims c -> in_range c -> 0 <= c < 65536 -> is_ankan c || is_kakan c = false /\ forall ex a, get_exposed c = Ok (ex, Some a) -> 0 <= a < 136.
Proof.
  intros K R B. pose proof (sweep16 _ claim_sweep c B) as S. cbv beta in S. pose proof (in_rangeb_ok c R) as Rb. rewrite (lo_small c B) in Rb. rewrite Rb in S.
  assert (Q : okind_eqb (spec_kind c) (Some Chi) || okind_eqb (spec_kind c) (Some Pon) || okind_eqb (spec_kind c) (Some Minkan) = true) by (destruct K as [-> | [-> | ->]]; reflexivity).
  rewrite Q in S. cbn [andb implb] in S. apply andb_prop in S as [S1 S2]. apply negb_true_iff in S1. split; [exact S1|]. intros ex a E. rewrite E in S2. lia.
Qed.
Lemma tix_type t : 0 <= t < 136 -> Z.of_nat (hd 0%nat (tix t)) = tile_type t.
Proof.
  intros Rt. rewrite tile_type_div, (proj1 (tix_hd t)), tid_id by exact Rt. assert (0 <= t / 4) by (apply Z.div_pos; lia). rewrite Z2Nat.id by assumption. reflexivity.
Qed.

(** ** Invariant *)
(** The moment at which player [w] claims tile [a] with code [c], after the plays [pre]. *)
Definition site L go e0 n (pre : list play) (w c : Z) (s0 : rstate) (p a : Z) (ex : list Z) (nk : naki) (nakis : list (list decision)) : Prop :=
  (exists evs, runs L go e0 evs n s0 pre) /\ 0 <= p < 4 /\ 0 <= w < 4 /\ w <> p /\ (w + from_who c) mod 4 = p /\
  last_discarded pre = Some a /\ get_exposed c = Ok (ex, Some a) /\ mk_naki c = Ok nk /\
  decision_mask p (s_ht s0) (tile_type a) (red_fiveb a) = Ok nakis /\ claims c /\ in_range c /\ unused_clear c /\ (spec_kind c = Some Chi -> from_who c = 3) /\
  List.length (s_ht s0) = 4%nat /\ exposable (Z.to_nat w) (row (s_hands s0) (Z.to_nat w)) (shown_by c).

Definition stem L go e0 n {S} (pls : list play) (h : halfturn S) : Prop := match h with
  | PostTurn p _ ds _ => forall q x nk, 0 <= q < 4 -> In (NakiDecision x nk true) (List.concat (nth (Z.to_nat q) ds [])) ->
      exists pre c post s0 a ex nkc nakis, pls = pre ++ PlCall q c :: post /\ site L go e0 n pre q c s0 p a ex nkc nakis /\
        In (NakiDecision q nk false) (offered nakis q) /\ nk_conv nk = nk_conv nkc
  | _ => True end.
Definition marked_as {S} (w cv : Z) (h : halfturn S) : Prop := match h with
  | PostTurn _ _ ds _ => exists x nk, In (NakiDecision x nk true) (List.concat (nth (Z.to_nat w) ds [])) /\ nk_conv nk = cv
  | _ => False end.
Definition all_marked L go e0 n (pls : list play) (hs : list (halfturn sobj)) : Prop := forall pre w c post, pls = pre ++ PlCall w c :: post -> claims c ->
  exists s0 p a ex nkc nakis, site L go e0 n pre w c s0 p a ex nkc nakis /\
    ((exists nk', In (NakiDecision w nk' false) (offered nakis w) /\ nk_conv nk' = nk_conv nkc) -> Exists (marked_as w (nk_conv nkc)) hs).
Definition open_inv (h : list play) (s : rstate) : Prop := s_cur s = true -> match s_half s with
  | PostTurn p _ ds _ :: _ => 0 <= p < 4 /\ exists t nakis, last_discarded h = Some t /\
      decision_mask p (s_ht s) (Z.of_nat (hd 0%nat (tix t))) (Nat.eqb (List.length (tix t)) 2) = Ok nakis /\ List.length ds = 4%nat /\
      forall q, 0 <= q < 4 -> exists wins, nth (Z.to_nat q) ds [] = [wins; []; if q =? p then [] else offered nakis q] /\ unmarked wins
  | _ => True end.

Lemma discard_open L n s h w t s' : wf s -> 0 <= w < 4 -> discard_step L n s (Z.to_nat w) t = Ok s' -> open_inv (h ++ [PlDiscard w t]) s'.
Proof.
  intros W S H. destruct (ap_frame (PlDiscard w t) s) as (F1 & F2 & F3 & F4). assert (Ew : w = Z.of_nat (Z.to_nat w)) by lia.
  apply discard_inv in H as (_ & so & acq & tok & rons & nakis & Eso & Ea & Et & Er & Em & _ & ->); [|lia|exact W].
  rewrite <- Ew in *. intros _.
  assert (Q : s_half (add_token tok (set_cur true (add_half (PostTurn w so (dec_lists rons (fun q => if Nat.eqb q (Z.to_nat w) then [] else nth q nakis [])) (ntokens s))
      (add_half (DiscardTurn w so t (ntokens s)) (apply (PlDiscard w t) s))))) = PostTurn w so (dec_lists rons (fun q => if Nat.eqb q (Z.to_nat w) then [] else nth q nakis [])) (ntokens s) :: DiscardTurn w so t (ntokens s) :: s_half s).
  { revert F1. generalize (apply (PlDiscard w t) s). intros sa F1. rewrite <- F1. destruct sa; reflexivity. }
  rewrite Q. split; [exact S|]. exists t, nakis. split; [apply last_discarded_snoc|].
  split; [revert Em; generalize (apply (PlDiscard w t) s); intros sa Em; destruct sa; exact Em|]. split; [reflexivity|].
  intros q Hq. rewrite dec_lists_nth by lia.
  pose proof (rons_shape _ _ _ _ _ _ _ _ _ _ _ _ _ (Z.to_nat q) ltac:(lia) Er) as Rs.
  eexists. split.
  - f_equal. f_equal. f_equal. unfold offered. destruct (Z.eqb_spec q w) as [->|Ne]; [rewrite Nat.eqb_refl; reflexivity|].
    destruct (Nat.eqb_spec (Z.to_nat q) (Z.to_nat w)) as [E|_]; [exfalso; lia|reflexivity].
  - destruct Rs as [-> | ->]; repeat constructor.
Qed.

Lemma stem_app L go e0 n {S} pls a (h : halfturn S) : stem L go e0 n pls h -> stem L go e0 n (pls ++ [a]) h.
Proof.
  destruct h; [exact (fun x => x)..|]. cbn [stem]. intros H q x nk Hq I. destruct (H q x nk Hq I) as (pre & c & post & s0 & a0 & ex & nkc & nakis & -> & R).
  exists pre, c, (post ++ [a]), s0, a0, ex, nkc, nakis. split; [rewrite <- app_assoc; reflexivity|exact R].
Qed.
Lemma marked_post w cv k (hs : list (halfturn sobj)) : Exists (marked_as w cv) hs -> Exists (marked_as w cv) (upd_post (fun ds => map (fun l => upd l DECISION_NAKI_IDX (exec_match k)) ds) hs).
Proof.
  intros E. destruct hs as [|h hs]; [exact E|]. destruct h as [| |p so ds i]; cbn [upd_post]; try exact E. apply Exists_cons in E as [E|E]; [|now apply Exists_cons_tl]. apply Exists_cons_hd.
  destruct E as (x & nk & I & C). cbn [marked_as]. exists x, nk. split; [|exact C]. change [] with ((fun l : list (list decision) => upd l DECISION_NAKI_IDX (exec_match k)) []). rewrite map_nth.
  destruct (nth (Z.to_nat w) ds []) as [|l0 [|l1 [|l2 r]]]; unfold DECISION_NAKI_IDX; cbn [upd List.concat] in *; try exact I.
  rewrite !in_app_iff in *. destruct I as [I|[I|[I|I]]]; auto. right; right; left. now apply marked_stays.
Qed.
Lemma marked_during w cv f (hs : list (halfturn sobj)) : Exists (marked_as w cv) hs -> Exists (marked_as w cv) (upd_during f hs).
Proof.
  intros E. destruct hs as [|h hs]; [exact E|]. destruct h as [p so ds i| |]; cbn [upd_during]; try exact E. apply Exists_cons in E as [E|E]; [destruct E|now apply Exists_cons_tl].
Qed.
Lemma stem_during L go e0 n pls f (hs : list (halfturn sobj)) : Forall (stem L go e0 n pls) hs -> Forall (stem L go e0 n pls) (upd_during f hs).
Proof. intros F. destruct F as [|h l H F]; [constructor|]. destruct h; cbn [upd_during]; constructor; assumption || exact I. Qed.
Lemma exec_in cv x nk l : In (NakiDecision x nk true) (exec_match cv l) -> Forall (fun d => d_executed d = false) l -> In (NakiDecision x nk false) l /\ nk_conv nk = cv.
Proof.
  induction l as [|d l IH]; intros I U; [destruct I|]. inversion U as [|? ? Ud Ul]; subst. cbn [exec_match] in I. destruct (matches cv d) eqn:M.
  - destruct I as [I|I].
    + destruct d as [q nk' e|q e|q e]; try discriminate M. cbn [set_executed d_executed matches] in *. injection I as <- <-. subst e. split; [now left|now apply Z.eqb_eq].
    + rewrite Forall_forall in Ul. specialize (Ul _ I). discriminate Ul.
  - destruct I as [I|I]; [subst d; discriminate Ud|]. destruct (IH I Ul) as [A B]. split; [now right|exact B].
Qed.

Lemma claims_app pls a : claims_ok (pls ++ [a]) -> claims_ok pls.
Proof. intros H pre w c post -> K. apply (H pre w c (post ++ [a])); [rewrite <- app_assoc; reflexivity|exact K]. Qed.
Lemma fwho c : from_who c = c mod 4.
Proof. exact (Z.land_ones c 2 ltac:(lia)). Qed.
Lemma seats q w f p : 0 <= q < 4 -> 0 <= w < 4 -> (q + f) mod 4 = p -> (w + f) mod 4 = p -> q = w.
Proof.
  intros Hq Hw A B. pose proof (Z.div_mod (q + f) 4). pose proof (Z.div_mod (w + f) 4). lia.
Qed.
Lemma snoc_split {A} (l : list A) a pre x post : l ++ [a] = pre ++ x :: post -> (post = [] /\ l = pre /\ a = x) \/ exists post', post = post' ++ [a] /\ l = pre ++ x :: post'.
Proof.
  intros E. destruct post as [|y post] using rev_ind.
  - left. apply app_inj_tail in E as [-> ->]. auto.
  - right. clear IHpost. exists post. rewrite app_comm_cons, app_assoc in E. apply app_inj_tail in E as [-> ->]. auto.
Qed.

Lemma calls_hold L go e0 evs n s pls : runs L go e0 evs n s pls -> consistent pls -> claims_ok pls ->
  Forall (stem L go e0 n pls) (s_half s) /\ all_marked L go e0 n pls (s_half s) /\ open_inv pls s.
Proof.
  revert evs s. revert pls. refine (fun pls evs s => runs_ind L go e0 n (fun pls s => consistent pls -> claims_ok pls -> Forall (stem L go e0 n pls) (s_half s) /\ all_marked L go e0 n pls (s_half s) /\ open_inv pls s) _ _ pls evs s).
  - intros s0 In0 _ _ _. destruct (in_rest _ _ In0) as (_ & _ & _ & _ & _ & _ & H1 & _ & _ & _ & H2 & _). unfold open_inv. rewrite H1, H2. split; [constructor|]. split; [intros [|? ?] w c post E; discriminate E|discriminate].
  - clear pls evs s. intros evs evs' h a s s' R R' IH W S G E Es Cn Kc.
    specialize (IH (consistent_app _ _ Cn) (claims_app _ _ Kc)). destruct IH as (I1 & I2 & I3).
    assert (I1' : Forall (stem L go e0 n (h ++ [a])) (s_half s)) by (eapply Forall_impl; [|exact I1]; intros x; apply stem_app).
    pose proof (astep_cur _ _ _ _ _ W S E) as Cu. pose proof (last_discarded_snoc h a) as El.
    assert (Old : forall hs, (forall w cv, Exists (marked_as w cv) (s_half s) -> Exists (marked_as w cv) hs) -> (forall w c, a <> PlCall w c) -> all_marked L go e0 n (h ++ [a]) hs).
    { intros hs Hm Na pre w c post Eq K. apply snoc_split in Eq as [(_ & _ & Eq)|(post' & _ & Eq)]; [destruct (Na w c Eq)|].
      destruct (I2 pre w c post' Eq K) as (s0 & p & t & ex & nkc & nakis & Hs & Hi). exists s0, p, t, ex, nkc, nakis. split; [exact Hs|]. intros X. apply Hm, Hi, X. }
    destruct a as [w t|w t|w c|w|w|t].
    + pose proof (astep_labels _ _ _ _ _ W S E) as Eh. destruct Eh as (so & ag & re & nl & b & Eh & _). unfold open_inv. rewrite Eh. split; [constructor; [exact I|exact I1']|]. split; [|intros _; exact I].
      apply Old; [|discriminate]. intros w' cv X. now apply Exists_cons_tl.
    + pose proof (astep_labels _ _ _ _ _ W S E) as Eh. destruct Eh as (so & ds & Eh & Ld & Hd). cbn [seated astep] in S, E. pose proof (discard_open _ _ _ h _ _ _ W S E) as Op.
      split; [|split; [|exact Op]].
      * rewrite Eh. constructor; [|constructor; [exact I|exact I1']]. cbn [stem]. intros q x nk Hq Hi. exfalso. destruct (Hd q Hq) as (b & nl & Ed & F). rewrite Ed in Hi. cbn [List.concat] in Hi. rewrite !app_nil_r in Hi. cbn [app] in Hi.
        apply in_app_iff in Hi as [Hi|Hi]; [destruct b; cbn in Hi; [destruct Hi as [Hi|[]]; discriminate Hi|destruct Hi]|]. rewrite Forall_forall in F. destruct (F _ Hi) as (nk' & X & _). discriminate X.
      * rewrite Eh. apply Old; [|discriminate]. intros w' cv X. now apply Exists_cons_tl, Exists_cons_tl.
    + pose proof (astep_labels _ _ _ _ _ W S E) as Eh. destruct Eh as (nk & hs & En & Ehs & E1). destruct Cu as [Cu Cu']. pose proof I3 as I3c. specialize (I3 Cu).
      destruct G as (Hw & _ & [ge Gx] & Gc & _ & Gy). destruct (lab_inv_holds _ _ _ _ _ _ _ R) as [Lbs Lb]. specialize (Lb Cu).
      assert (Hlen : List.length (s_ht s) = 4%nat) by apply W.
      assert (B : Forall (stem L go e0 n (h ++ [PlCall w c])) hs /\ all_marked L go e0 n (h ++ [PlCall w c]) hs).
      { rewrite Ehs. destruct (is_ankan c || is_kakan c) eqn:Hk.
        - split; [apply stem_during; exact I1'|]. intros pre w' c' post Eq K. apply snoc_split in Eq as [(-> & Eq1 & Eq)|(post' & -> & Eq)].
          + exfalso. injection Eq as <- <-. subst pre. destruct (Kc h w c [] eq_refl K) as (K1 & [K2 _] & _). destruct (claim_facts c K K1 K2) as [X _]. rewrite X in Hk. discriminate Hk.
          + destruct (I2 pre w' c' post' Eq K) as (s0 & p & t & ex & nkc & nakis & Hs & Hi). exists s0, p, t, ex, nkc, nakis. split; [exact Hs|]. intros X. apply marked_during, Hi, X.
        - unfold cur_post in Gc. apply andb_prop in Gc as [_ Gc]. destruct (s_half s) as [|x r] eqn:Es0; [discriminate Gc|]. destruct x as [| |p so ds i]; try discriminate Gc.
          destruct I3 as (Hp & t & nakis & Lt & Dm & Ld & Hd). destruct Lb as [_ Hturn]. cbn [half_player] in Hturn. specialize (Hturn (consistent_app _ _ Cn)).
          assert (Se : w <> p /\ (w + from_who c) mod 4 = p).
          { unfold consistent in Cn. apply in_turn_app in Cn as [_ Cn]. cbn [in_turn] in Cn. rewrite Hk in Cn. destruct Cn as [Cn _]. rewrite <- Hturn in Cn. rewrite fwho. exact Cn. }
          destruct Se as [Se1 Se2]. cbn [upd_post].
          assert (Site : claims c -> exists a ex, site L go e0 n h w c s p a ex nk nakis /\ t = a).
          { intros K. destruct (Kc h w c [] eq_refl K) as (K1 & K2 & Kf & ex & t' & K3 & K4). rewrite Lt in K4. injection K4 as <-. destruct (claim_facts c K K1 (proj1 K2)) as [_ Ra]. specialize (Ra ex t K3).
            exists t, ex. split; [|reflexivity]. unfold site. split; [exists evs; exact R|]. split; [exact Hp|]. split; [exact Hw|]. split; [exact Se1|]. split; [exact Se2|]. split; [exact Lt|]. split; [exact K3|]. split; [exact En|].
            split; [rewrite (tix_type t Ra), (tix_red_ok t Ra) in Dm; exact Dm|]. split; [exact K|]. split; [exact K1|]. split; [exact K2|]. split; [exact Kf|]. split; [exact Hlen|exact Gy]. }
          assert (Tr : 0 <= Z.of_nat (hd 0%nat (tix t)) < 34).
          { pose proof (tid_range t). rewrite (proj1 (tix_hd t)). assert (0 <= tid t / 4 < 34) by (split; [apply Z.div_pos; lia|apply Z.div_lt_upper_bound; lia]). rewrite Z2Nat.id by lia. assumption. }
          assert (Nth : forall q, 0 <= q < 4 -> exists wins, nth (Z.to_nat q) (map (fun l => upd l DECISION_NAKI_IDX (exec_match (nk_conv nk))) ds) [] = [wins; []; exec_match (nk_conv nk) (if q =? p then [] else offered nakis q)] /\ unmarked wins).
          { intros q Hq. change [] with ((fun l : list (list decision) => upd l DECISION_NAKI_IDX (exec_match (nk_conv nk))) []) at 1. rewrite map_nth. destruct (Hd q Hq) as (wins & -> & U). exists wins. split; [reflexivity|exact U]. }
          split.
          + inversion I1' as [|x' r' _ I1r]; subst x' r'. constructor; [|exact I1r]. cbn [stem]. intros q x nk' Hq Hi. destruct (Nth q Hq) as (wins & Ew & U). rewrite Ew in Hi. cbn [List.concat] in Hi. rewrite !app_nil_r in Hi. cbn [app] in Hi.
            apply in_app_iff in Hi as [Hi|Hi]; [exfalso; unfold unmarked in U; rewrite Forall_forall in U; specialize (U _ Hi); discriminate U|].
            destruct (q =? p) eqn:Qp; [destruct Hi|]. apply Z.eqb_neq in Qp. pose proof (mask_fresh p (s_ht s) _ _ nakis q Hlen Hp Tr Hq Dm) as Fr.
            apply exec_in in Hi as [Hi Cv]; [|eapply Forall_impl; [|exact Fr]; intros d (y & -> & _); reflexivity].
            destruct (right_players _ _ _ _ _ Hlen Hp Tr Dm) as [_ Rp]. destruct (Rp q _ Hq Hi) as (nk0 & k0 & Ed & Sk & Kk & Fw & _). injection Ed as -> <-.
            rewrite Forall_forall in Fr. destruct (Fr _ Hi) as (nk1 & Ed & Raw & _). injection Ed as <-.
            destruct ge as [ex0 a0]. destruct (normalise c nk ex0 a0 En Gx) as (_ & Nk & Nf & _). rewrite <- Cv, Raw in Nk, Nf.
            assert (q = w) by (apply (seats q w (from_who c) p Hq Hw); [rewrite <- Nf; exact Fw|exact Se2]). subst q.
            assert (K : claims c) by (unfold claims; rewrite <- Nk, Sk; destruct Kk as [-> | [-> | ->]]; auto).
            destruct (Site K) as (a & ex & St & _). exists h, c, [], s, a, ex, nk, nakis. split; [reflexivity|]. split; [exact St|]. split; [exact Hi|exact Cv].
          + intros pre w' c' post Eq K. apply snoc_split in Eq as [(-> & Eq1 & Eq)|(post' & -> & Eq)].
            * injection Eq as <- <-. subst pre. destruct (Site K) as (a & ex & St & _). exists s, p, a, ex, nk, nakis. split; [exact St|]. intros (nk' & Hi & Cv). apply Exists_cons_hd. cbn [marked_as].
              destruct (Nth w Hw) as (wins & Ew & U). rewrite Ew. cbn [List.concat]. rewrite !app_nil_r. cbn [app]. replace (w =? p) with false by (symmetry; apply Z.eqb_neq; exact Se1).
              destruct (exec_match_cases (nk_conv nk) (offered nakis w)) as [(l1 & d & l2 & Eo & -> & M)|[_ N]].
              -- destruct d as [q nkd e|q e|q e]; try discriminate M. cbn [matches set_executed] in *. apply Z.eqb_eq in M. exists q, nkd. split; [|exact M]. apply in_app_iff. right. apply in_app_iff. right. now left.
              -- exfalso. rewrite Forall_forall in N. specialize (N _ Hi). cbn [matches] in N. rewrite Cv, Z.eqb_refl in N. discriminate N.
            * destruct (I2 pre w' c' post' Eq K) as (s0 & p0 & t0 & ex & nkc & nakis0 & Hs & Hi). exists s0, p0, t0, ex, nkc, nakis0. split; [exact Hs|]. intros X.
              exact (marked_post w' (nk_conv nkc) (nk_conv nk) (PostTurn p so ds i :: r) (Hi X)). }
      destruct B as [B1 B2]. unfold open_inv. rewrite Cu'. destruct (is_kakan c).
      * destruct E1 as (so1 & ds & Eh & Ld & Hd). rewrite Eh. split; [|split; [|discriminate]].
        -- constructor; [|exact B1]. cbn [stem]. intros q x nk' Hq Hi. exfalso. destruct (Hd q Hq) as (b & Eb). rewrite Eb in Hi. destruct b; cbn in Hi; [destruct Hi as [Hi|[]]; discriminate Hi|destruct Hi].
        -- intros pre w' c' post Eq K. destruct (B2 pre w' c' post Eq K) as (s0 & p0 & t0 & ex & nkc & nakis0 & Hs & Hi). exists s0, p0, t0, ex, nkc, nakis0. split; [exact Hs|]. intros X. apply Exists_cons_tl, Hi, X.
      * rewrite E1. split; [exact B1|]. split; [exact B2|discriminate].
    + pose proof (astep_labels _ _ _ _ _ W S E) as Eh. cbn beta iota in Eh, El. destruct Cu as [Cu _]. specialize (I3 Cu).
      assert (Ht : s_ht s' = s_ht s) by (apply strip_fields in Es as (_ & G2 & _); rewrite G2; apply ap_ht).
      unfold open_inv. rewrite Eh, Ht, El. split; [apply stem_during; exact I1'|]. split; [apply Old; [|discriminate]; intros w' cv; apply marked_during|]. intros _. destruct (s_half s) as [|x r]; [exact I|]. destruct x; cbn [upd_during]; exact I || exact I3.
    + pose proof (astep_labels _ _ _ _ _ W S E) as Eh. cbn beta iota in Eh, El. destruct Cu as [Cu _]. specialize (I3 Cu).
      assert (Ht : s_ht s' = s_ht s) by (apply strip_fields in Es as (_ & G2 & _); rewrite G2; apply ap_ht).
      unfold open_inv. rewrite Eh, Ht, El. split; [exact I1'|]. split; [apply Old; [auto|discriminate]|intros _; exact I3].
    + pose proof (astep_labels _ _ _ _ _ W S E) as Eh. cbn beta iota in Eh, El.
      assert (Ht : s_ht s' = s_ht s) by (apply strip_fields in Es as (_ & G2 & _); rewrite G2; apply ap_ht).
      unfold open_inv in *. rewrite Eh, Ht, El, Cu. split; [exact I1'|]. split; [apply Old; [auto|discriminate]|exact I3].
Qed.

(** ** Samples *)
Lemma actor_in {S} (h : halfturn S) w ps : In w ps -> decisions_for h w <> [] -> (forall q, In q ps -> q <> w -> existsb d_executed (decisions_for h q) = false) -> In w (up_to_actor h ps).
Proof.
  induction ps as [|q ps IH]; [intros []|]. intros I N F. cbn [up_to_actor]. destruct (Z.eq_dec q w) as [->|Ne].
  - destruct (decisions_for h w) eqn:E; [destruct (N eq_refl)|]. now left.
  - assert (Iw : In w (up_to_actor h ps)) by (apply IH; [destruct I; [contradiction|assumption]|exact N|intros x Hx; apply F; now right]).
    pose proof (F q (or_introl eq_refl) Ne) as Fq. destruct (decisions_for h q) eqn:E; [exact Iw|]. rewrite Fq. now right.
Qed.
Lemma in_decs {S} p (so : S) ds i q d : 0 <= q < 4 -> List.length ds = 4%nat -> In d (decisions_for (PostTurn p so ds i) q) -> In d (List.concat (List.concat ds)).
Proof.
  intros Hq Hl H. cbn [decisions_for] in H. apply in_concat in H as (l & L1 & L2). apply in_concat. exists l. split; [|exact L2]. apply in_concat. exists (nth (Z.to_nat q) ds []). split; [apply nth_In; lia|exact L1].
Qed.
Lemma site_seats p w : 0 <= p < 4 -> 0 <= w < 4 -> w <> p -> In w [(p + 1) mod 4; (p + 2) mod 4; (p + 3) mod 4].
Proof.
  intros Hp Hw Ne. assert (C : p = 0 \/ p = 1 \/ p = 2 \/ p = 3) by lia. assert (D : w = 0 \/ w = 1 \/ w = 2 \/ w = 3) by lia.
  destruct C as [-> | [-> | [-> | ->]]], D as [-> | [-> | [-> | ->]]]; cbn; try tauto; destruct (Ne eq_refl).
Qed.
Lemma asked_seats {S} p (so : S) ds i q : In q (asked (PostTurn p so ds i)) -> 0 <= q < 4.
Proof.
  cbn [asked]. assert (U : forall ps, In q (up_to_actor (PostTurn p so ds i) ps) -> In q ps).
  { induction ps as [|x ps IH]; [auto|]. cbn [up_to_actor]. destruct (decisions_for _ x); [right; now apply IH|]. intros [<-|I]; [now left|]. destruct (existsb d_executed _); [destruct I|right; now apply IH]. }
  intros I. apply U in I. cbn [In] in I. pose proof (Z.mod_pos_bound (p + 1) 4). pose proof (Z.mod_pos_bound (p + 2) 4). pose proof (Z.mod_pos_bound (p + 3) 4). lia.
Qed.

Lemma offered_raw L go e0 n pre w c s0 p a ex nkc nakis nk : site L go e0 n pre w c s0 p a ex nkc nakis -> In (NakiDecision w nk false) (offered nakis w) -> nk_conv nk = nk_code nk.
Proof.
  intros (_ & Hp & Hw & _ & _ & _ & He & _ & Dm & K & Kr & Ku & _ & Hl & _) I. destruct (claim_facts c K Kr (proj1 Ku)) as [_ Ra]. specialize (Ra ex a He).
  assert (Tr : 0 <= tile_type a < 34) by (rewrite tile_type_div; split; [apply Z.div_pos; lia|apply Z.div_lt_upper_bound; lia]).
  pose proof (mask_fresh p _ _ _ _ w Hl Hp Tr Hw Dm) as F. rewrite Forall_forall in F. destruct (F _ I) as (nk' & E & Raw & _). injection E as <-. exact Raw.
Qed.

Definition no_riichi {S} (h : halfturn S) : Prop := match h with PostTurn _ _ ds _ => List.length ds = 4%nat /\ Forall (proper post_action 154) ds /\ forall q, 0 <= q < 4 -> nth 1 (nth (Z.to_nat q) ds []) [] = [] | _ => True end.
Lemma no_riichi_in {S} p (so : S) ds i q d : no_riichi (PostTurn p so ds i) -> 0 <= q < 4 -> In d (decisions_for (PostTurn p so ds i) q) -> is_riichi d -> False.
Proof.
  intros (Ld & F & N) Hq I Rd. specialize (N q Hq). cbn [decisions_for] in I. rewrite Forall_forall in F. destruct (F (nth (Z.to_nat q) ds [])) as (wi & ri & ca & E & _ & _ & F1 & _ & F2); [apply nth_In; lia|].
  rewrite E in *. cbn [nth] in N. subst ri. cbn [List.concat app] in I. rewrite app_nil_r in I. rewrite Forall_forall in F1, F2. apply in_app_iff in I as [I|I]; [specialize (F1 _ I)|destruct (F2 _ I) as [F3 _]]; destruct d; contradiction.
Qed.
Lemma claim_targets L go e0 rest half tokens pls a t : process_round L go (e0 :: rest) = Ok (half, tokens) -> plays_of_round (e0 :: rest) pls -> consistent pls -> claims_ok pls ->
  build_tensors a half tokens = Ok t -> exists n,
  Forall (fun r => 2 <= r_label r -> exists pre c post s0 p t ex nkc nakis, pls = pre ++ PlCall (r_player r) c :: post /\ site L go e0 n pre (r_player r) c s0 p t ex nkc nakis /\
    (exists nk, In (NakiDecision (r_player r) nk false) (offered nakis (r_player r)) /\ nk_conv nk = nk_conv nkc) /\ get_post_turn_filter_idx (nk_conv nkc) = Ok (r_label r)) (t_post t) /\
  forall pre w c post, pls = pre ++ PlCall w c :: post -> claims c -> exists s0 p t0 ex nkc nakis, site L go e0 n pre w c s0 p t0 ex nkc nakis /\
    ((exists nk, In (NakiDecision w nk false) (offered nakis w) /\ nk_conv nk = nk_conv nkc) -> forall i, get_post_turn_filter_idx (nk_conv nkc) = Ok i -> Exists (fun r => r_player r = w /\ r_label r = i) (t_post t)).
Proof.
  intros H P Cn Kc B. destruct (formed_rounds _ _ _ _ _ H) as [W X]. destruct (build_ok _ _ _ _ B W X) as (_ & _ & rows & Er & D).
  destruct (round_runs _ _ _ _ _ _ _ H P) as (plays & n & s & R & Eh & _ & _). exists n.
  destruct (calls_hold _ _ _ _ _ _ _ R Cn Kc) as (F & M & _). pose proof (C37_always _ _ _ _ _ _ _ R) as Lb.
  assert (Fh : Forall (stem L go e0 n pls) half) by (rewrite Eh; apply Forall_map, Forall_rev; eapply Forall_impl; [|exact F]; intros h; destruct h; exact (fun x => x)).
  assert (Nr : Forall no_riichi half).
  { apply Forall_forall. intros h Hh. rewrite Forall_forall in W. pose proof (W h Hh) as Wh. rewrite Eh in Hh. apply in_map_iff in Hh as (h0 & E0 & I0). apply in_rev in I0. rewrite Forall_forall in Lb. specialize (Lb _ I0).
    destruct h0 as [| |p so ds i]; subst h; [exact I..|]. cbn [map_half well_formed labels_ok no_riichi] in *. destruct Wh as (_ & L4 & Wp). split; [exact L4|]. split; [exact Wp|]. intros q Hq. destruct Lb as (_ & _ & Lq). destruct (Lq q Hq) as (w0 & c0 & -> & _). reflexivity. }
  split.
  - rewrite Er. apply Forall_concat. clear Er B.
    assert (Fo : Forall (fun h => stem L go e0 n pls h /\ no_riichi h) (reactions half)) by (apply Forall_forall; intros h Hh; apply filter_In in Hh as [Hh _]; rewrite Forall_forall in Fh, Nr; split; [exact (Fh h Hh)|exact (Nr h Hh)]).
    clear - D Fo. induction D as [|h rs l l' (p & v & ds & i & t & f & -> & _ & _ & _ & F1) D IH]; [constructor|]. inversion Fo as [|? ? [Q Qn] Ql]; subst. constructor; [|exact (IH Ql)]. clear IH Ql Fo D.
    assert (Sq : forall q, In q (asked (PostTurn p v ds i)) -> 0 <= q < 4) by (intros q; apply asked_seats). revert Sq F1. generalize (asked (PostTurn p v ds i)) as qs. intros qs Sq F1.
    induction F1 as [|q r qs rs (_ & _ & Rp & _ & T & _) F1 IH]; constructor; [|apply IH; intros q' I'; apply Sq; now right]. intros L2. rewrite Rp.
    destruct T as [(d & D1 & D2 & D3)|(_ & D3)]; [|lia]. destruct d as [x nk e|x e|x e]; cbn [post_action d_executed] in *; [subst e| |lia].
    + cbn [stem] in Q. destruct (Q q x nk (Sq q (or_introl eq_refl)) D1) as (pre & c & post & s0 & ta & ex & nkc & nakis & E & St & Hi & Cv). exists pre, c, post, s0, p, ta, ex, nkc, nakis. split; [exact E|]. split; [exact St|]. split; [exists nk; auto|].
      rewrite <- Cv, (offered_raw _ _ _ _ _ _ _ _ _ _ _ _ _ _ St Hi). exact D3.
    + exfalso. exact (no_riichi_in _ _ _ _ q _ Qn (Sq q (or_introl eq_refl)) D1 I).
  - intros pre w c post E K. destruct (M pre w c post E K) as (s0 & p & t0 & ex & nkc & nakis & St & Hi). exists s0, p, t0, ex, nkc, nakis. split; [exact St|]. intros Ho i Ix. specialize (Hi Ho).
    apply Exists_exists in Hi as (h & Ih & Mh). destruct h as [| |p' so ds j]; [destruct Mh..|]. destruct Mh as (x & nk & In2 & Cv).
    rewrite Forall_forall in F, Lb. pose proof (F _ Ih) as Sh. cbn [stem] in Sh. destruct St as (_ & Hp & Hw & _). destruct (Sh w x nk Hw In2) as (pre' & c' & post' & s0' & a' & ex' & nkc' & nakis' & _ & St' & Io & _).
    specialize (Lb _ Ih). cbn [labels_ok] in Lb. destruct Lb as (Ld & N1 & Lq).
    assert (Hr : In (PostTurn p' (observe s so) ds j) (reactions half)).
    { apply filter_In. split.
      - rewrite Eh. apply in_map_iff. exists (PostTurn p' so ds j). split; [reflexivity|]. now apply -> in_rev.
      - apply existsb_exists. exists (nth (Z.to_nat w) ds []). split; [apply nth_In; lia|]. unfold some_decision. apply existsb_exists. apply in_concat in In2 as (l & L1 & L2). exists l. split; [exact L1|]. destruct l; [destruct L2|reflexivity]. }
    destruct (forall2_in_l _ _ _ D _ Hr) as (rs & Irs & (p1 & v & ds1 & j1 & t1 & f & E1 & _ & _ & _ & F1)). injection E1 as <- <- <- <-.
    assert (Ne : decisions_for (PostTurn p' (observe s so) ds j) w <> []) by (cbn [decisions_for]; intros Z0; rewrite Z0 in In2; destruct In2).
    assert (Ia : In w (asked (PostTurn p' (observe s so) ds j))).
    { pose proof St' as (_ & Hp' & _ & Nw & _). cbn [asked]. apply actor_in; [now apply site_seats|exact Ne|]. intros q Iq Nq.
      assert (Hq : 0 <= q < 4) by (cbn [In] in Iq; pose proof (Z.mod_pos_bound (p' + 1) 4); pose proof (Z.mod_pos_bound (p' + 2) 4); pose proof (Z.mod_pos_bound (p' + 3) 4); lia).
      destruct (existsb d_executed _) eqn:X0; [|reflexivity]. exfalso. apply existsb_exists in X0 as (d & Id & Xd).
      pose proof (one_mark _ d (NakiDecision x nk true) N1 (in_decs _ _ _ _ _ _ Hq Ld Id) (in_decs p' (observe s so) _ j _ _ Hw Ld In2) Xd eq_refl) as ->.
      destruct (Lq q Hq) as (w1 & c1 & Q1 & _ & O1). destruct (Lq w Hw) as (w2 & c2 & Q2 & _ & O2). cbn [decisions_for] in Id. rewrite Q1 in Id. rewrite Q2 in In2. cbn [List.concat app] in Id, In2. rewrite app_nil_r in Id, In2.
      unfold of_player in O1, O2. rewrite Forall_forall in O1, O2. pose proof (O1 _ Id) as Y1. pose proof (O2 _ In2) as Y2. congruence. }
    destruct (forall2_in_l _ _ _ F1 _ Ia) as (r & Ir & (_ & _ & Rp & _ & T & _)). rewrite Er. apply Exists_exists. exists r. split; [apply in_concat; exists rs; auto|]. split; [exact Rp|].
    destruct T as [(d & D1 & D2 & D3)|(N & _)].
    + pose proof (one_mark _ d (NakiDecision x nk true) N1 (in_decs _ _ _ _ _ _ Hw Ld D1) (in_decs p' (observe s so) _ j _ _ Hw Ld In2) D2 eq_refl) as ->. cbn [post_action] in D3.
      rewrite <- Cv, (offered_raw _ _ _ _ _ _ _ _ _ _ _ _ _ _ St' Io) in Ix. rewrite Ix in D3. now apply Ok_inj in D3.
    + exfalso. rewrite Forall_forall in N. specialize (N _ In2). discriminate N.
Qed.

(** ** Hands *)
Definition red (x : Z) : Prop := In x [16; 52; 88].
(** How many tiles of type [k] other than a red five are in a list. *)
Definition plain (k : Z) (l : list Z) : Z := Z.of_nat (List.length (filter (fun x => (x / 4 =? k) && negb (red_fiveb x)) l)).
(** The pon with [ex] from the hand and [a] claimed by a player holding [hl] before that:
    the red five comes from the hand and is one of exactly two copies held, or it is not in the
    pon, the claimed copy is the lowest of the three and two copies that are not red are held. *)
Definition pon_found (k : Z) (ex : list Z) (a : Z) (hl : list Z) : Prop :=
  (Exists red ex /\ of_type k hl = 2) \/ (~ Exists red (a :: ex) /\ Forall (fun x => a < x) ex /\ plain k hl = 2).
(** The chi that are missed: the hand gives a five and contains the red five of the suit, and
    the claimed tile goes between the two, or the five given is not red and the hand does not
    contain two copies of the type claimed. *)
Definition chi_missed (ex : list Z) (a : Z) (hl : list Z) : Prop :=
  Exists (fun x => (x / 4) mod 9 = 4) ex /\ (exists r, red r /\ In r hl /\ r / 36 = a / 36) /\
  ((exists x y, In x ex /\ In y ex /\ x / 4 < a / 4 < y / 4) \/ (~ Exists red ex /\ of_type (a / 4) hl < 2)).

Lemma red_iff x : red x <-> red_fiveb x = true.
Proof. unfold red, red_fiveb. rewrite !orb_true_iff, !Z.eqb_eq. cbn [In]. lia. Qed.
Lemma reds_iff l : Exists red l <-> has_red_five l = true.
Proof.
  unfold has_red_five. rewrite existsb_exists, Exists_exists. split; intros (x & I & R); exists x; (split; [exact I|]); now apply red_iff.
Qed.
Lemma filter_split {A} (f g : A -> bool) l : (List.length (filter f l) = List.length (filter (fun x => f x && g x) l) + List.length (filter (fun x => f x && negb (g x)) l))%nat.
Proof. induction l as [|x l IH]; [reflexivity|]. cbn [filter]. destruct (f x), (g x); cbn [andb negb List.length]; lia. Qed.
Lemma plain_split k l : five_type k -> of_type k l = num (Z.to_nat (34 + k / 9)) l + plain k l.
Proof.
  intros F. unfold of_type, num, plain. rewrite (filter_split (fun x => x / 4 =? k) red_fiveb l), Nat2Z.inj_add. f_equal. f_equal. f_equal. apply filter_ext. intros x.
  destruct (red_fiveb x) eqn:R; [|rewrite andb_false_r].
  - unfold red_fiveb in R. rewrite !orb_true_iff, !Z.eqb_eq in R. destruct R as [[-> | ->] | ->], F as [-> | [-> | ->]]; reflexivity.
  - unfold red_fiveb in R. apply orb_false_elim in R as [R R3]. apply orb_false_elim in R as [R1 R2]. destruct F as [-> | [-> | ->]]; cbn; auto.
Qed.
Lemma plain_none k l : ~ five_type k -> plain k l = of_type k l.
Proof.
  intros F. unfold plain, of_type. f_equal. f_equal. apply filter_ext. intros x. destruct (Z.eqb_spec (x / 4) k) as [E|_]; [|reflexivity]. destruct (red_fiveb x) eqn:R; [|reflexivity]. exfalso. apply F.
  unfold red_fiveb in R. rewrite !orb_true_iff, !Z.eqb_eq in R. unfold five_type. destruct R as [[-> | ->] | ->]; subst k; auto.
Qed.
Lemma of_type_perm k l l' : Permutation l l' -> of_type k l = of_type k l'.
Proof. intros P. unfold of_type. f_equal. apply Permutation_length. induction P; cbn [filter]; repeat (destruct (_ =? _)); eauto using Permutation. Qed.
Lemma plain_perm k l l' : Permutation l l' -> plain k l = plain k l'.
Proof. intros P. unfold plain. f_equal. apply Permutation_length. induction P; cbn [filter]; repeat (destruct (_ && _)); eauto using Permutation. Qed.
Lemma concealed_perm e0 pre w l l' : concealed e0 pre w l -> concealed e0 pre w l' -> Permutation l l'.
Proof.
  unfold concealed. intros A B. rewrite A in B. apply Permutation_app_inv_l in B. now apply Permutation_app_inv_l in B.
Qed.
Lemma found_perm k ex a l l' : Permutation l l' -> pon_found k ex a l -> pon_found k ex a l'.
Proof. intros P. unfold pon_found. rewrite (of_type_perm k _ _ P), (plain_perm k _ _ P). exact (fun x => x). Qed.
Lemma missed_perm ex a l l' : Permutation l l' -> chi_missed ex a l -> chi_missed ex a l'.
Proof.
  intros P (A & (r & R1 & R2 & R3) & C). split; [exact A|]. split; [exists r; split; [exact R1|]; split; [exact (Permutation_in _ P R2)|exact R3]|]. rewrite <- (of_type_perm _ _ _ P). exact C.
Qed.

(** ** Pons *)
Definition pon_number (k : Z) : Z := if k <? 27 then 83 + k else 86 + k.
Definition pon_chk c : bool := implb (okind_eqb (spec_kind c) (Some Pon) && in_rangeb c && (field c 7 2 =? 0))
  match clean c, get_exposed c with
  | Ok v, Ok (ex, Some a) => Bool.eqb (field c 9 7 mod 3 =? 0) (forallb (fun x => a <? x) ex) && match get_post_turn_filter_idx v with Ok i => i =? pon_number (tile_type a) | Err _ => false end &&
      forallb (fun x => x / 4 =? tile_type a) ex && negb (existsb (fun x => x =? a) ex)
  | _, _ => false end.
Lemma pon_chk_all : sweep 16 pon_chk = true.
Proof. vm_cast_no_check (eq_refl true). Qed.
Lemma pon_facts c nk ex a : spec_kind c = Some Pon -> in_range c -> unused_clear c -> mk_naki c = Ok nk -> get_exposed c = Ok (ex, Some a) ->
  (field c 9 7 mod 3 = 0 <-> Forall (fun x => a < x) ex) /\ get_post_turn_filter_idx (nk_conv nk) = Ok (pon_number (tile_type a)) /\ Forall (fun x => x / 4 = tile_type a) ex /\ ~ In a ex.
Proof.
  intros K R U Nc E. pose proof U as U'. unfold unused_clear in U'. rewrite K in U'. destruct U' as (Bc & _ & U2). pose proof (sweep16 _ pon_chk_all c Bc) as S. unfold pon_chk in S.
  pose proof (in_rangeb_ok c R) as Rb. rewrite (lo_small c Bc) in Rb. rewrite K, Rb, U2, E in S. cbn [okind_eqb kind_eqb andb implb Z.eqb] in S.
  unfold mk_naki in Nc. destruct (clean c) as [v|]; [|discriminate S]. injection Nc as <-. cbn [nk_conv].
  apply andb_prop in S as [S S4]. apply andb_prop in S as [S S3]. apply andb_prop in S as [S1 S2]. apply Bool.eqb_prop in S1. split; [|split; [|split]].
  - rewrite <- Z.eqb_eq, S1, forallb_forall, Forall_forall. split; intros H x I; specialize (H x I); lia.
  - destruct (get_post_turn_filter_idx v) as [i|]; [|discriminate S2]. apply Z.eqb_eq in S2. congruence.
  - rewrite forallb_forall in S3. apply Forall_forall. intros x I. specialize (S3 x I). lia.
  - intros I. apply negb_true_iff in S4. assert (X : existsb (fun x => x =? a) ex = true) by (apply existsb_exists; exists a; split; [exact I|apply Z.eqb_refl]). rewrite X in S4. discriminate S4.
Qed.
Lemma other_chk_all : sweep 16 (fun c => match clean c with Ok v => match get_post_turn_filter_idx v with
    | Ok i => implb (okind_eqb (spec_kind c) (Some Chi) && in_rangeb c && (field c 9 1 =? 0)) ((2 <=? i) && (i <=? 86) && match get_post_turn_filter_idx c with Ok j => i =? j | Err _ => false end) &&
              implb (okind_eqb (spec_kind c) (Some Minkan) && in_rangeb c) (120 <=? i)
    | Err _ => implb (okind_eqb (spec_kind c) (Some Chi) && in_rangeb c) false end | Err _ => true end) = true.
Proof. vm_cast_no_check (eq_refl true). Qed.
Lemma other_facts c nk : in_range c -> unused_clear c -> mk_naki c = Ok nk ->
  (spec_kind c = Some Chi -> exists i, get_post_turn_filter_idx c = Ok i /\ get_post_turn_filter_idx (nk_conv nk) = Ok i /\ 2 <= i <= 86) /\
  (spec_kind c = Some Minkan -> forall i, get_post_turn_filter_idx (nk_conv nk) = Ok i -> 120 <= i).
Proof.
  intros R U Nc. pose proof (proj1 U) as Bc. pose proof (sweep16 _ other_chk_all c Bc) as S. cbv beta in S. pose proof (in_rangeb_ok c R) as Rb. rewrite (lo_small c Bc) in Rb. rewrite Rb in S.
  unfold mk_naki in Nc. destruct (clean c) as [v|]; [|discriminate Nc]. injection Nc as <-. cbn [nk_conv]. unfold unused_clear in U. destruct U as [_ U]. split; intros K; rewrite K in S, U.
  - rewrite U in S. cbn [okind_eqb kind_eqb andb implb Z.eqb] in S. destruct (get_post_turn_filter_idx v) as [i|]; [|discriminate S]. apply andb_prop in S as [S _]. apply andb_prop in S as [S S3].
    destruct (get_post_turn_filter_idx c) as [j|]; [|discriminate S3]. apply Z.eqb_eq in S3. subst j. exists i. split; [reflexivity|]. split; [reflexivity|]. lia.
  - intros i E. rewrite E in S. cbn [okind_eqb kind_eqb andb implb] in S. lia.
Qed.

(** ** Rounds *)
Lemma site_hand L go e0 n pre w c s0 p a ex nkc nakis : site L go e0 n pre w c s0 p a ex nkc nakis -> exists hl, concealed e0 pre w hl /\
  (forall k, 0 <= k < 34 -> hget (hand_of (s_ht s0) w) k = of_type k hl) /\ (forall j, 0 <= j < 3 -> hget (hand_of (s_ht s0) w) (34 + j) = num (Z.to_nat (34 + j)) hl /\ num (Z.to_nat (34 + j)) hl <= 1) /\
  (forall x, 0 <= hget (hand_of (s_ht s0) w) x) /\ exists hl', Permutation hl (map tid ex ++ hl').
Proof.
  intros ((evs & R) & _ & Hw & _ & _ & _ & He & _ & _ & _ & _ & _ & _ & _ & Gy). destruct (hand_inv_holds _ _ _ _ _ _ _ R (Z.to_nat w) ltac:(lia)) as (hl & Hh & P & Hv). rewrite Z2Nat.id in * by lia.
  exists hl. split; [exact P|]. unfold hget, hand_of. fold (row (s_ht s0) (Z.to_nat w)).
  assert (V : forall k, (k < 37)%nat -> vget (row (s_ht s0) (Z.to_nat w)) k = num k hl) by (intros k Hk; exact (proj1 (Hv k Hk))).
  split; [intros k Hk; rewrite <- num_type by exact Hk; apply V; lia|]. split.
  { intros j Hj. split; [apply V; lia|]. pose proof Hh as (_ & Nd & Fh & _). pose proof (num_bound (Z.to_nat (34 + j)) hl ltac:(lia) Nd Fh) as B. unfold class_size in B.
    destruct (Nat.ltb_spec (Z.to_nat (34 + j)) 34); lia. }
  split.
  - intros x. destruct (Nat.lt_ge_cases (Z.to_nat x) 37) as [H|H]; [rewrite V by exact H; apply num_nonneg|]. unfold vget. rewrite nth_overflow; [lia|].
    destruct (wf_after _ _ _ _ _ _ _ R) as (_ & _ & L4 & F4 & _). rewrite Forall_forall in F4. unfold row. rewrite F4; [exact H|]. apply nth_In. lia.
  - destruct (holds_expose _ _ _ _ Hh Gy) as (hl' & Pe & _). exists hl'. unfold shown_by in Pe. rewrite He in Pe. exact Pe.
Qed.
Lemma ex_sweep : sweep 16 (fun c => implb ((okind_eqb (spec_kind c) (Some Chi) || okind_eqb (spec_kind c) (Some Pon)) && in_rangeb c)
  match get_exposed c with Ok (ex, Some a) => forallb (fun x => (0 <=? x) && (x <? 136)) ex | _ => false end) = true.
Proof. vm_cast_no_check (eq_refl true). Qed.
Lemma ex_range c ex a : spec_kind c = Some Chi \/ spec_kind c = Some Pon -> in_range c -> 0 <= c < 65536 -> get_exposed c = Ok (ex, Some a) -> Forall (fun x => 0 <= x < 136) ex.
Proof.
  intros K R B E. pose proof (sweep16 _ ex_sweep c B) as S. cbv beta in S. pose proof (in_rangeb_ok c R) as Rb. rewrite (lo_small c B) in Rb. rewrite Rb, E in S.
  assert (Q : okind_eqb (spec_kind c) (Some Chi) || okind_eqb (spec_kind c) (Some Pon) = true) by (destruct K as [-> | ->]; reflexivity).
  rewrite Q in S. cbn [andb implb] in S. rewrite forallb_forall in S. apply Forall_forall. intros x I. specialize (S x I). lia.
Qed.
Lemma tids l : Forall (fun x => 0 <= x < 136) l -> map tid l = l.
Proof. induction 1 as [|x l H _ IH]; [reflexivity|]. cbn [map]. now rewrite tid_id, IH by exact H. Qed.
Lemma num_in k x l : In x l -> in_class k x = true -> 0 < num k l.
Proof. intros I C. unfold num. assert (J : In x (filter (in_class k) l)) by (apply filter_In; auto). destruct (filter (in_class k) l); [destruct J|cbn; lia]. Qed.
Lemma num_out k l : 0 < num k l -> exists x, In x l /\ in_class k x = true.
Proof. unfold num. intros H. destruct (filter (in_class k) l) as [|x r] eqn:E; [cbn in H; lia|]. assert (J : In x (filter (in_class k) l)) by (rewrite E; now left). apply filter_In in J. now exists x. Qed.
Lemma of_type_in k x l : In x l -> x / 4 = k -> 0 < of_type k l.
Proof. intros I E. unfold of_type. assert (J : In x (filter (fun x => x / 4 =? k) l)) by (apply filter_In; split; [exact I|lia]). destruct (filter _ l); [destruct J|cbn; lia]. Qed.

Lemma site_range L go e0 n pre w c s0 p a ex nkc nakis : site L go e0 n pre w c s0 p a ex nkc nakis -> 0 <= a < 136 /\ 0 <= tile_type a < 34 /\ from_who c = (p - w) mod 4.
Proof.
  intros (_ & Hp & Hw & _ & Fw & _ & He & _ & _ & K & Kr & Ku & _). destruct (claim_facts c K Kr (proj1 Ku)) as [_ Ra]. specialize (Ra ex a He). split; [exact Ra|].
  split; [rewrite tile_type_div; split; [apply Z.div_pos; lia|apply Z.div_lt_upper_bound; lia]|].
  assert (B : 0 <= from_who c < 4) by (rewrite fwho; apply Z.mod_pos_bound; lia). rewrite <- Fw. rewrite Zminus_mod_idemp_l. replace (w + from_who c - w) with (from_who c) by ring. symmetry. now apply Z.mod_small.
Qed.

Lemma site_pon L go e0 n pre w c s0 p a ex nkc nakis hl : site L go e0 n pre w c s0 p a ex nkc nakis -> spec_kind c = Some Pon -> concealed e0 pre w hl ->
  ((exists nk, In (NakiDecision w nk false) (offered nakis w) /\ nk_conv nk = nk_conv nkc) <-> pon_found (a / 4) ex a hl).
Proof.
  intros St K Hc. destruct (site_hand _ _ _ _ _ _ _ _ _ _ _ _ _ St) as (hl0 & Hc0 & V & Vr & _ & hl' & Pe). pose proof (concealed_perm _ _ _ _ _ Hc0 Hc) as P.
  destruct (site_range _ _ _ _ _ _ _ _ _ _ _ _ _ St) as (Ra & Rt & Fw). destruct St as (_ & Hp & Hw & Ne & _ & _ & He & En & Dm & _ & Kr & Ku & _ & Hl & _).
  destruct (pon_facts c nkc ex a K Kr Ku En He) as (Lo & _ & Ty & _). rewrite (tids ex (ex_range c ex a (or_intror K) Kr (proj1 Ku) He)) in Pe.
  assert (X : (exists nk, In (NakiDecision w nk false) (offered nakis w) /\ nk_conv nk = nk_conv nkc) <-> pon_found (a / 4) ex a hl0).
  { rewrite <- tile_type_div. unfold pon_found. rewrite !reds_iff. destruct (five_typeb (tile_type a)) eqn:F5.
    - assert (F : five_type (tile_type a)) by (unfold five_typeb, five_type in *; rewrite !orb_true_iff, !Z.eqb_eq in F5; tauto).
      rewrite (pon_five_label p (s_ht s0) c nkc (tile_type a) (red_fiveb a) nakis ex a w Hl Hp Hw Ne F Dm En K Kr Ku Fw He eq_refl eq_refl), Lo, (V _ Rt). pose proof (plain_split _ hl0 F) as Sp.
      assert (Rj : 0 <= tile_type a / 9 < 3) by (destruct F as [-> | [-> | ->]]; cbn; lia). destruct (Vr _ Rj) as [Vj Bj]. unfold holds_red. rewrite Vj. pose proof (num_nonneg (Z.to_nat (34 + tile_type a / 9)) hl0) as Nj.
      assert (Hr : has_red_five ex = true -> 0 < num (Z.to_nat (34 + tile_type a / 9)) hl0).
      { intros Hr. apply existsb_exists in Hr as (x & Ix & Rx). apply (num_in _ x).
        - apply (Permutation_in _ (Permutation_sym Pe)). apply in_app_iff. now left.
        - rewrite Forall_forall in Ty. specialize (Ty x Ix). apply red_iff in Rx. destruct Rx as [<-|[<-|[<-|[]]]]; rewrite <- Ty; reflexivity. }
      rewrite <- not_true_iff_false. split.
      + intros [(A1 & _ & A2)|(A1 & A2 & A3)]; [left; auto|right]. split; [exact A1|]. split; [exact A2|]. lia.
      + intros [(A1 & A2)|(A1 & A2 & A3)]; [left; auto|right]. split; [exact A1|]. split; [exact A2|]. lia.
    - assert (F : ~ five_type (tile_type a)) by (intros F; unfold five_typeb, five_type in *; destruct F as [E | [E | E]]; rewrite E in F5; discriminate F5).
      rewrite (pon_label p (s_ht s0) c nkc (tile_type a) (red_fiveb a) nakis ex a w Hl Hp Rt Hw Ne Dm En K Kr Ku Fw He eq_refl F), Lo, (V _ Rt), (plain_none _ _ F).
      assert (Nx : forall x, tile_type x = tile_type a -> red_fiveb x = false).
      { intros x Ex. destruct (red_fiveb x) eqn:Rx; [|reflexivity]. exfalso. apply F. rewrite <- Ex. exact (proj2 (red_type x Rx)). }
      assert (Ne' : has_red_five ex = false).
      { destruct (has_red_five ex) eqn:Hr; [|reflexivity]. apply existsb_exists in Hr as (x & Ix & Rx). rewrite Forall_forall in Ty. rewrite (Nx x) in Rx; [discriminate Rx|]. rewrite tile_type_div. exact (Ty x Ix). }
      cbn [has_red_five existsb]. fold (has_red_five ex). rewrite Ne', (Nx a eq_refl). cbn [orb]. intuition congruence. }
  rewrite X. split; apply found_perm; [exact P|exact (Permutation_sym P)].
Qed.

Lemma chi_shape c : spec_kind c = Some Chi -> in_range c -> unused_clear c -> from_who c = 3 -> exists s n w rd, chi_of c s n w rd.
Proof.
  intros Hk Hr Hu Hf. unfold unused_clear in Hu. rewrite Hk in Hu. destruct Hu as [Hb U].
  pose proof (sweep16 _ chk_logged_all c Hb) as S. unfold chk_logged in S.
  pose proof (in_rangeb_ok c Hr) as Rb. rewrite (lo_small c Hb) in Rb. rewrite Hk, Rb, U, Hf in S. cbn [okind_eqb kind_eqb andb implb Z.eqb Pos.eqb] in S.
  destruct (shape c) as [[[[s n] w] rd]|] eqn:Sh; [|discriminate S]. exists s, n, w, rd. now apply shape_ok.
Qed.
Lemma chi_tiles c s n w rd ex a : chi_of c s n w rd -> get_exposed c = Ok (ex, Some a) -> 0 <= s < 3 /\ 0 <= n < 7 /\ a / 4 = 9 * s + n + w /\
  exists x y, ex = [x; y] /\ ((w = 0 /\ x / 4 = 9 * s + n + 1 /\ y / 4 = 9 * s + n + 2) \/ (w = 1 /\ x / 4 = 9 * s + n /\ y / 4 = 9 * s + n + 2) \/ (w = 2 /\ x / 4 = 9 * s + n /\ y / 4 = 9 * s + n + 1)).
Proof.
  intros Hs E. pose proof (types_of_chi _ _ _ _ _ _ _ Hs E) as (Bs & Bn & Bw & _ & A & _). destruct Hs as (_ & _ & _ & _ & ex' & a' & E' & I & _). rewrite E in E'. injection E' as <- <-.
  split; [exact Bs|]. split; [exact Bn|]. rewrite <- tile_type_div. split; [exact A|].
  assert (L : List.length ex = 2%nat).
  { apply (f_equal (@List.length Z)) in I. unfold insert_at in I. rewrite app_length in I. cbn [List.length] in I.
    pose proof (firstn_skipn (Z.to_nat w) (map tile_type ex)) as F. apply (f_equal (@List.length Z)) in F. rewrite app_length, map_length in F. lia. }
  destruct ex as [|x [|y [|]]]; try discriminate L. exists x, y. split; [reflexivity|]. cbn [map] in I. rewrite <- !tile_type_div. clear - I Bw. revert I. generalize (tile_type x) (tile_type y) (tile_type a) (9 * s + n). intros tx ty ta b I.
  assert (C : w = 0 \/ w = 1 \/ w = 2) by lia. destruct C as [-> | [-> | ->]]; cbn [Z.to_nat Pos.to_nat Pos.iter_op Nat.add insert_at firstn skipn app] in I; injection I as -> -> ->; auto.
Qed.

Lemma site_chi L go e0 n pre w c s0 p a ex nkc nakis hl : site L go e0 n pre w c s0 p a ex nkc nakis -> spec_kind c = Some Chi -> concealed e0 pre w hl ->
  ((exists nk, In (NakiDecision w nk false) (offered nakis w) /\ nk_conv nk = nk_conv nkc) <-> ~ chi_missed ex a hl).
Proof.
  intros St K Hc. destruct (site_hand _ _ _ _ _ _ _ _ _ _ _ _ _ St) as (hl0 & Hc0 & V & Vr & Nn & hl' & Pe). pose proof (concealed_perm _ _ _ _ _ Hc0 Hc) as P.
  destruct (site_range _ _ _ _ _ _ _ _ _ _ _ _ _ St) as (Ra & Rt & Fw). destruct St as (_ & Hp & Hw & Ne & Fs & _ & He & En & Dm & _ & Kr & Ku & Kf & Hl & _). specialize (Kf K).
  rewrite (tids ex (ex_range c ex a (or_introl K) Kr (proj1 Ku) He)) in Pe.
  destruct (chi_shape c K Kr Ku Kf) as (s & m & wh & rd & Hs). destruct (chi_tiles _ _ _ _ _ _ _ Hs He) as (Bs & Bm & Ta & x & y & Ex & Cx).
  assert (Ew : w = (p + 1) mod 4). { rewrite Kf in Fs. pose proof (Z.div_mod (w + 3) 4). pose proof (Z.div_mod (p + 1) 4). pose proof (Z.mod_pos_bound (p + 1) 4). lia. }
  assert (Ih : forall z, In z ex -> In z hl0) by (intros z Iz; apply (Permutation_in _ (Permutation_sym Pe)); apply in_app_iff; now left).
  assert (T9 : tile_type a / 9 = s /\ tile_type a mod 9 = m + wh).
  { rewrite tile_type_div, Ta. split; symmetry; [apply (Z.div_unique _ 9 s (m + wh))|apply (Z.mod_unique _ 9 s (m + wh))]; lia. }
  destruct T9 as [T9 T9']. destruct (Vr s Bs) as [Vs _].
  assert (Hall : holds_all (hand_of (s_ht s0) w) (map tile_type ex)).
  { intros z. pose proof (Nn z) as Nz. rewrite Ex. cbn [map count_occ]. rewrite !tile_type_div.
    assert (Qx : 0 < hget (hand_of (s_ht s0) w) (x / 4)) by (rewrite V by lia; apply (of_type_in _ x); [apply Ih; rewrite Ex; now left|reflexivity]).
    assert (Qy : 0 < hget (hand_of (s_ht s0) w) (y / 4)) by (rewrite V by lia; apply (of_type_in _ y); [apply Ih; rewrite Ex; right; now left|reflexivity]).
    destruct (Z.eq_dec (x / 4) z), (Z.eq_dec (y / 4) z); subst; cbn [Z.of_nat]; try lia. }
  assert (Rs : holds_red (hand_of (s_ht s0) w) (tile_type a) <-> exists r, red r /\ In r hl0 /\ r / 36 = a / 36).
  { unfold holds_red. rewrite T9, Vs. assert (A36 : a / 36 = s) by (replace 36 with (4 * 9) by reflexivity; rewrite <- Z.div_div by lia; rewrite <- tile_type_div; exact T9). rewrite A36. split.
    - intros Q. apply num_out in Q as (r & Ir & Cr). exists r. unfold in_class in Cr. assert (C : s = 0 \/ s = 1 \/ s = 2) by lia. destruct C as [-> | [-> | ->]]; cbn in Cr; apply Z.eqb_eq in Cr; subst r; (split; [cbn; tauto|]); (split; [exact Ir|reflexivity]).
    - intros (r & Rr & Ir & Er). apply (num_in _ r); [exact Ir|]. rewrite <- Er. destruct Rr as [<-|[<-|[<-|[]]]]; reflexivity. }
  assert (Hred : has_red_five ex = true -> holds_red (hand_of (s_ht s0) w) (tile_type a)).
  { intros Hr. apply Rs. apply existsb_exists in Hr as (z & Iz & Rz). exists z. split; [now apply red_iff|]. split; [exact (Ih z Iz)|]. replace 36 with (4 * 9) by reflexivity. rewrite <- !Z.div_div by lia. rewrite <- (tile_type_div a), T9.
    rewrite Ex in Iz. destruct Iz as [<-|[<-|[]]]; symmetry.
    - apply (Z.div_unique _ 9 s (x / 4 - 9 * s)); lia.
    - apply (Z.div_unique _ 9 s (y / 4 - 9 * s)); lia. }
  assert (X : (exists nk, In (NakiDecision w nk false) (offered nakis w) /\ nk_conv nk = nk_conv nkc) <-> ~ chi_missed ex a hl0).
  { rewrite Ew in *. rewrite (chi_label_exact p (s_ht s0) c nkc (tile_type a) (red_fiveb a) nakis ex a s m wh rd Hl Hp Rt Dm En Kr Ku Kf Hs He eq_refl eq_refl Nn Hall Hred). rewrite (V _ Rt), Rs. unfold chi_missed. rewrite reds_iff, not_true_iff_false, <- tile_type_div.
    assert (F5 : five_beside (tile_type a) wh <-> Exists (fun x => (x / 4) mod 9 = 4) ex).
    { unfold five_beside. rewrite T9', Ex. 
      assert (Mx : (x / 4) mod 9 = x / 4 - 9 * s) by (symmetry; apply (Z.mod_unique _ 9 s); lia). assert (My : (y / 4) mod 9 = y / 4 - 9 * s) by (symmetry; apply (Z.mod_unique _ 9 s); lia).
      rewrite !Exists_cons, Exists_nil, Mx, My. split.
      - intros (i & Hi & Ni & Ei). lia.
      - intros Q. exists (4 - m). lia. }
    assert (Mid : wh = 1 <-> exists x y, In x ex /\ In y ex /\ x / 4 < tile_type a < y / 4).
    { rewrite Ex, tile_type_div, Ta. split.
      - intros ->. exists x, y. cbn [In]. split; [auto|]. split; [auto|lia].
      - intros (z1 & z2 & I1 & I2 & B). cbn [In] in I1, I2. destruct I1 as [<-|[<-|[]]], I2 as [<-|[<-|[]]]; lia. }
    rewrite F5, Mid. reflexivity. }
  rewrite X. split; intros Y Z0; apply Y; revert Z0; apply missed_perm; [exact (Permutation_sym P)|exact P].
Qed.

(** A player has a sample whose target is the call with number [i] exactly if the player calls
    a chi with that number that is not missed, or a pon with that number that is found. *)
Theorem C131_targets_partial : forall L go e0 rest half tokens pls a t, process_round L go (e0 :: rest) = Ok (half, tokens) -> plays_of_round (e0 :: rest) pls ->
  consistent pls -> claims_ok pls -> build_tensors a half tokens = Ok t ->
  forall w i, 2 <= i ->
  (Exists (fun r => r_player r = w /\ r_label r = i) (t_post t) <->
   exists pre c post ex tl hl, pls = pre ++ PlCall w c :: post /\ get_exposed c = Ok (ex, Some tl) /\ concealed e0 pre w hl /\
     ((spec_kind c = Some Chi /\ get_post_turn_filter_idx c = Ok i /\ ~ chi_missed ex tl hl) \/
      (spec_kind c = Some Pon /\ i = pon_number (tl / 4) /\ pon_found (tl / 4) ex tl hl))).
Proof.
  intros L go e0 rest half tokens pls a t H P Cn Kc B w i Hi. destruct (claim_targets _ _ _ _ _ _ _ _ _ H P Cn Kc B) as (n & F & G). split.
  - intros Ex. apply Exists_exists in Ex as (r & Ir & <- & <-). rewrite Forall_forall in F. destruct (F r Ir Hi) as (pre & c & post & s0 & p & tl & ex & nkc & nakis & E & St & Ho & Ix).
    destruct (site_hand _ _ _ _ _ _ _ _ _ _ _ _ _ St) as (hl & Hc & _). exists pre, c, post, ex, tl, hl. pose proof St as (_ & _ & _ & _ & _ & _ & He & En & Dm & K & Kr & Ku & _ & Hl & _).
    split; [exact E|]. split; [exact He|]. split; [exact Hc|]. destruct (other_facts c nkc Kr Ku En) as [Fc Fm]. destruct K as [K|[K|K]].
    + left. split; [exact K|]. destruct (Fc K) as (j & J1 & J2 & _). rewrite Ix in J2. apply Ok_inj in J2. subst j. split; [exact J1|]. exact (proj1 (site_chi _ _ _ _ _ _ _ _ _ _ _ _ _ _ St K Hc) Ho).
    + right. split; [exact K|]. destruct (pon_facts c nkc ex tl K Kr Ku En He) as (_ & J & _). rewrite Ix in J. apply Ok_inj in J. rewrite <- tile_type_div. split; [exact J|]. rewrite tile_type_div. exact (proj1 (site_pon _ _ _ _ _ _ _ _ _ _ _ _ _ _ St K Hc) Ho).
    + exfalso. destruct Ho as (nk' & Io & Cv). destruct (site_range _ _ _ _ _ _ _ _ _ _ _ _ _ St) as (_ & Rt & _). pose proof St as (_ & Hp & Hw & _).
      exact (minkan_never_labelled p (s_ht s0) c nkc _ _ nakis ex tl _ nk' Hl Hp Rt Hw Dm En K Kr (proj1 Ku) He eq_refl eq_refl Io Cv).
  - intros (pre & c & post & ex & tl & hl & E & He & Hc & Q). assert (K : claims c) by (unfold claims; destruct Q as [(K & _)|(K & _)]; auto).
    destruct (G pre w c post E K) as (s0 & p & t0 & ex' & nkc & nakis & St & Ho). pose proof St as (_ & _ & _ & _ & _ & _ & He' & En & _ & _ & Kr & Ku & _). rewrite He in He'. apply Ok_inj in He'. injection He' as <- <-.
    destruct Q as [(K1 & Ix & Q)|(K1 & -> & Q)].
    + apply Ho; [exact (proj2 (site_chi _ _ _ _ _ _ _ _ _ _ _ _ _ _ St K1 Hc) Q)|]. destruct (proj1 (other_facts c nkc Kr Ku En) K1) as (j & J1 & J2 & _). rewrite Ix in J1. apply Ok_inj in J1. subst j. exact J2.
    + apply Ho; [exact (proj2 (site_pon _ _ _ _ _ _ _ _ _ _ _ _ _ _ St K1 Hc) Q)|]. rewrite <- tile_type_div. exact (proj1 (proj2 (pon_facts c nkc ex tl K1 Kr Ku En He))).
Qed.
Print Assumptions C131_targets_partial.

(** The round of PropsKanTarget.v, in which player 1 claims the last copy of East. *)
Lemma added_claims : claims_ok added_plays.
Proof.
  intros pre w c post E K. unfold added_plays in E. repeat (destruct pre as [|? pre]; cbn [app] in E; [try discriminate E|injection E as <- E]); try (injection E as <- <- _).
  - destruct K as [K|[K|K]]; discriminate K.
  - split; [vm_compute; split; reflexivity|]. split; [vm_compute; repeat split; discriminate || reflexivity|]. split; [discriminate|]. eexists. eexists. split; vm_compute; reflexivity.
  - destruct K as [K|[K|K]]; discriminate K.
  - destruct pre; discriminate E.
Qed.
(** C131 is false: the pon is allowed and called, and not the target. *)
Theorem C131_refuted : exists L go e0 rest half tokens pls a t r w c i,
  process_round L go (e0 :: rest) = Ok (half, tokens) /\ plays_of_round (e0 :: rest) pls /\ consistent pls /\ claims_ok pls /\ build_tensors a half tokens = Ok t /\
  In (PlCall w c) pls /\ spec_kind c = Some Pon /\ get_post_turn_filter_idx c = Ok i /\
  In r (t_post t) /\ r_player r = w /\ allowed_by r i /\ Forall (fun r => r_label r <> i) (t_post t).
Proof.
  destruct (sample_round_ok ex_libs TF added_round (fun h tk t => existsb (fun r => (r_player r =? 1) && (nth 113 (r_mask r) 0 =? 1)) (t_post t) && forallb (fun r => negb (r_label r =? 113)) (t_post t))) as (h & tk & t & H1 & H2 & H3);
    [vm_compute; reflexivity|]. apply andb_prop in H3 as [H3 H4]. apply existsb_exists in H3 as (r & Ir & H3). apply andb_prop in H3 as [R1 R2]. apply Z.eqb_eq in R1, R2.
  exists ex_libs, 169, added_init, (added_events ++ [MkEvent "RYUUKYOKU" [("sc","0,0,0,0")]]%string), h, tk, added_plays, TF, t, r, 1, 42603, 113.
  split; [exact H1|]. split; [exact added_round_plays|]. split; [exact added_consistent|]. split; [exact added_claims|]. split; [exact H2|]. split; [unfold added_plays; cbn [In]; tauto|].
  split; [vm_compute; reflexivity|]. split; [vm_compute; reflexivity|]. split; [exact Ir|]. split; [exact R1|]. split; [split; [lia|exact R2]|].
  rewrite forallb_forall in H4. apply Forall_forall. intros r0 I0. specialize (H4 r0 I0). apply negb_true_iff, Z.eqb_neq in H4. exact H4.
Qed.
Print Assumptions C131_refuted.

(** Non-vacuity: player 1 claims the first copy of East holding the next two, and player 2 claims
    2s with 3s and 4s; both calls are targets. *)
Definition found_init : event :=
  MkEvent "INIT" [("seed","0,0,1,2,3,132"); ("ten","250,240,250,250"); ("oya","0"); ("hai0","0,1,2,16,20,24,36,40,44,108,112,116,120"); ("hai1","109,110,27,41,45,49,53,57,61,65,69,73,77");
    ("hai2","72,76,80,84,88,92,96,100,104,4,8,12,113"); ("hai3","5,9,13,17,21,25,29,33,38,42,46,50,54")]%string.
Definition found_events : list event := [MkEvent "T124" []; MkEvent "D108" []; MkEvent "N" [("who","1"); ("m","41579")]; MkEvent "E77" []; MkEvent "N" [("who","2"); ("m","46095")]; MkEvent "F113" []]%string.
Definition found_round : list event := found_init :: found_events ++ [MkEvent "RYUUKYOKU" [("sc","0,0,0,0")]]%string.
Definition found_plays : list play := [PlDraw 0 124; PlDiscard 0 108; PlCall 1 41579; PlDiscard 1 77; PlCall 2 46095; PlDiscard 2 113].
Lemma found_round_plays : plays_of_round found_round found_plays.
Proof. exact (plays_check found_init found_events [MkEvent "RYUUKYOKU" [("sc","0,0,0,0")]]%string eq_refl eq_refl eq_refl). Qed.
Lemma found_consistent : consistent found_plays.
Proof. unfold consistent, found_plays. cbn [in_turn]. repeat split; (vm_compute; reflexivity) || (vm_compute; discriminate). Qed.
Lemma found_claims : claims_ok found_plays.
Proof.
  intros pre w c post E K. unfold found_plays in E. repeat (destruct pre as [|? pre]; cbn [app] in E; [try discriminate E|injection E as <- E]); try (injection E as <- <- _).
  - split; [vm_compute; split; reflexivity|]. split; [vm_compute; repeat split; discriminate || reflexivity|]. split; [discriminate|]. eexists. eexists. split; vm_compute; reflexivity.
  - split; [vm_compute; reflexivity|]. split; [vm_compute; repeat split; discriminate || reflexivity|]. split; [reflexivity|]. eexists. eexists. split; vm_compute; reflexivity.
  - destruct pre; discriminate E.
Qed.
Example C131_example : spec_kind 41579 = Some Pon /\ spec_kind 46095 = Some Chi /\ get_post_turn_filter_idx 46095 = Ok 47 /\ pon_number 27 = 113 /\
  match sample_round ex_libs TF found_round with Some (_, _, t) => existsb (fun r => (r_player r =? 1) && (r_label r =? 113)) (t_post t) && existsb (fun r => (r_player r =? 2) && (r_label r =? 47)) (t_post t) | None => false end = true.
Proof. vm_compute. repeat split. Qed.
