(** Corollaries used by PropsTurn.v and PropsAgari.v. *)
From Coq Require Import ZArith List Bool String Ascii Lia PeanoNat Permutation.
From Verif Require Import Base Constants Naki Decision Tokens GameInfo Agari Process VecLemmas
  SpecMeld SpecTokens SpecRound SpecDecision SpecTurn SpecLabels SpecAgari NakiProofs NakiLemmas NakiCore NakiLemmas2 TokensLemmas DecisionProofs DecisionLemmas
  RoundLemmas RoundInv RoundTiles RoundInit RoundBook RoundFlags RoundSplit RoundHalf RoundFacts RoundQuery RoundCount RoundLabels RoundMelds AgariLemmas.
Import ListNotations.
Open Scope Z_scope.

Lemma chiihou_query L go e0 evs n s' pls w t : runs L go e0 evs n s' (pls ++ [PlDraw w t]) ->
  exists q, tsumo_asks L s' w q /\
   (q_chiihou q = true -> 1 <= draws pls <= 3 /\ never_opened pls) /\
   (calls pls = 0 -> (q_chiihou q = true <-> 1 <= draws pls <= 3)).
Proof.
  intros R. destruct (tsumo_query _ _ _ _ _ _ _ _ _ R) as (q & Hq & _ & _ & _ & _ & _ & _ & _ & _ & _ & _ & _ & Hc).
  exists q. split; [exact Hq|]. rewrite Hc. clear Hc Hq q.
  pose proof (cyc_inv_holds _ _ _ _ _ _ _ R) as (C1 & C2 & C3).
  destruct (runs_snoc _ _ _ _ _ _ _ _ R) as (evs1 & ev & s & _ & R1 & W & S & E & G & Es).
  pose proof (cyc_inv_holds _ _ _ _ _ _ _ R1) as (D1 & D2 & D3).
  pose proof (all_set_menzen _ _ _ _ _ _ _ R) as M.
  assert (Cy : s_cycles s' = s_cycles s + 1).
  { apply strip_fields in Es as (_ & _ & _ & _ & _ & _ & _ & _ & _ & _ & _ & _ & _ & _ & _ & Ec & _). rewrite Ec. now rewrite ap_cycles. }
  rewrite draws_app in C1. change (draws [PlDraw w t]) with 1 in C1.
  assert (N0 : 0 <= draws pls) by apply draws_nonneg.
  split.
  - intros H. apply andb_prop in H as [H H3]. apply andb_prop in H as [H1 H2]. apply Z.leb_le in H1, H2. split.
    + destruct (Z.eq_dec (draws pls) 0) as [Z0|]; [|lia]. destruct (D2 Z0) as (_ & D & _). lia.
    + intros p Hp O. apply (proj1 M H3 p Hp). destruct O as (c & Hin & Hc). exists c. split; [|exact Hc]. apply in_app_iff. now left.
  - intros Hc. assert (Cs : s_cycles s = draws pls) by auto.
    assert (MM : all_set (s_menzen s') = true).
    { apply (proj2 M). intros p Hp (c & Hin & _). apply in_app_iff in Hin as [Hin|[Hin|[]]]; [|discriminate].
      assert (0 < calls pls); [|lia]. unfold calls. assert (In (PlCall p c) (filter (fun e => match e with PlCall _ _ => true | _ => false end) pls)) as Hf by (apply filter_In; auto).
      destruct (filter _ pls); [destruct Hf|cbn [List.length]; lia]. }
    rewrite MM, andb_true_r, Cy, Cs. rewrite andb_true_iff, !Z.leb_le. lia.
Qed.

Lemma no_calls_never_opened pls : calls pls = 0 -> never_opened pls.
Proof.
  intros Hc p Hp (c & Hin & _).
  assert (0 < calls pls); [|lia]. unfold calls. assert (In (PlCall p c) (filter (fun e => match e with PlCall _ _ => true | _ => false end) pls)) as Hf by (apply filter_In; auto).
  destruct (filter _ pls); [destruct Hf|cbn [List.length]; lia].
Qed.

Lemma renhou_query L go e0 evs n s' pls w t p : runs L go e0 evs n s' (pls ++ [PlDiscard w t]) -> 0 <= p < 4 ->
  p <> w -> ~ furiten p t pls -> exists q, ron_asks L s' w p q /\
   (q_renhou q = true -> never_opened pls /\ draws pls <= 3 /\ draws pls <= w) /\
   (calls pls = 0 -> (q_renhou q = true <-> draws pls <= 3 /\ draws pls <= w)).
Proof.
  intros R Hp N F. destruct (ron_query _ _ _ _ _ _ _ _ _ R p Hp) as [_ A].
  destruct (A N F) as (q & B & _ & _ & _ & _ & _ & _ & _ & _ & _ & _ & _ & Hr). exists q. split; [exact B|]. rewrite Hr. clear A B Hr.
  pose proof (cyc_inv_holds _ _ _ _ _ _ _ R) as (C1 & C2 & C3).
  pose proof (all_set_menzen _ _ _ _ _ _ _ R) as M.
  rewrite draws_app in C1, C3. rewrite calls_app in C3. change (draws [PlDiscard w t]) with 0 in C1, C3. change (calls [PlDiscard w t]) with 0 in C3.
  split.
  - intros H. apply andb_prop in H as [H H3]. apply andb_prop in H as [H1 H2]. apply Z.leb_le in H1, H2. split; [|lia].
    intros x Hx O. apply (proj1 M H3 x Hx). destruct O as (c & Hin & Hc). exists c. split; [|exact Hc]. apply in_app_iff. now left.
  - intros Hc. assert (Cs : s_cycles s' = draws pls) by lia.
    assert (MM : all_set (s_menzen s') = true).
    { apply (proj2 M). intros x Hx (c & Hin & H). apply in_app_iff in Hin as [Hin|[Hin|[]]]; [|discriminate].
      apply (no_calls_never_opened pls Hc x Hx). now exists c. }
    rewrite MM, andb_true_r, Cs. rewrite andb_true_iff, !Z.leb_le. lia.
Qed.

Lemma init_winds go e0 n s : init_round go e0 = Ok (n, s) ->
  n_player_wind n = nth 0 (seed_of e0) 0 mod 4 /\ n_round_wind n = nth 0 (seed_of e0) 0 / 4.
Proof.
  unfold init_round. intros H.
  apply bind_ok in H as (u1 & _ & H). apply bind_ok in H as (ten & Eten & H). apply bind_ok in H as (scores & Esc & H).
  apply bind_ok in H as (oya & _ & H). apply bind_ok in H as (parent & _ & H). apply bind_ok in H as (pi & _ & H).
  apply bind_ok in H as (seed & Es & H). apply bind_ok in H as (sd & Ed & H).
  unfold seed_of. rewrite Es, Ed. destruct sd as [|c [|ho [|ky [|d1 [|d2 [|dora [|]]]]]]]; try discriminate.
  apply bind_ok in H as (his & _ & H). apply bind_ok in H as (x & _ & H). destruct x as [[hts povs] rem].
  apply bind_ok in H as (di & _ & H). cbv zeta in H. apply bind_ok in H as (hands & _ & H).
  apply bind_ok in H as (u2 & _ & H). apply bind_ok in H as (u3 & _ & H). apply bind_ok in H as (u4 & _ & H).
  apply Ok_inj in H. apply (f_equal fst) in H. cbn [fst] in H. subst n. cbn [n_player_wind n_round_wind nth]. split; reflexivity.
Qed.
Lemma run_winds L go e0 evs n s pls : runs L go e0 evs n s pls ->
  n_player_wind n = nth 0 (seed_of e0) 0 mod 4 /\ n_round_wind n = nth 0 (seed_of e0) 0 / 4.
Proof. intros (s0 & H & _). exact (init_winds _ _ _ _ H). Qed.

Lemma mapM_codes {B} (f : Z -> res B) l : mapM (fun nk => f (nk_code nk)) l = mapM f (map nk_code l).
Proof. induction l as [|x l IH]; [reflexivity|]. cbn [mapM map]. now rewrite IH. Qed.

Lemma asked_melds L go e0 evs n s pls p q : runs L go e0 evs n s pls -> 0 <= p < 4 -> asks_about n s p q ->
  mapM lib_meld_of (meld_codes p pls) = Ok (q_melds q).
Proof.
  intros R Hp (A & _). destruct (melds_inv_holds _ _ _ _ _ _ _ R p Hp) as [M _]. rewrite mapM_codes, M in A. exact A.
Qed.

(** What the query lists of a hand. *)
Lemma asked_tiles h q : asks_hand h q ->
  lists_tiles h 0 9 (q_man q) /\ lists_tiles h 9 9 (q_pin q) /\ lists_tiles h 18 9 (q_sou q) /\ lists_tiles h 27 7 (q_honors q).
Proof. unfold asks_hand. intros H. symmetry in H. now apply hand_strings. Qed.

Lemma window L go evs half tokens : process_round L go evs = Ok (half, tokens) ->
  exists e0 plays results n s pls, evs = e0 :: plays ++ results /\ runs L go e0 plays n s pls /\
  Z.of_nat (List.length tokens) <= 117 + all_sticks pls /\
  Forall (fun h => 0 <= index_of h <= Z.of_nat (List.length tokens)) half /\
  ((forall p, 0 <= p < 4 -> sticks p pls <= 1) -> Z.of_nat (List.length tokens) <= 121).
Proof.
  intros H. apply accepted_points in H as (e0 & pl & re & n & s & pls & E & R & (Eh & Et) & A).
  exists e0, pl, re, n, s, pls. split; [exact E|]. split; [exact R|].
  destruct (A pl [] ltac:(now rewrite app_nil_r)) as (s1 & pls1 & pls2 & R1 & _ & Rem & _).
  assert (s1 = s /\ pls1 = pls) as [-> ->].
  { destruct R as (s0 & I & F & P), R1 as (s0' & I' & F' & P'). rewrite I in I'. apply Ok_inj in I'. injection I' as <-.
    rewrite F in F'. apply Ok_inj in F'. rewrite P in P'. split; [congruence|]. clear -P'. revert pls1 P'.
    induction pls as [|x l IH]; intros [|y r]; cbn; try discriminate; [reflexivity|]. intros H. injection H as -> H. f_equal. auto. }
  pose proof (token_bound _ _ _ _ _ _ _ R) as B. specialize (B (fun k Hk => Rem k ltac:(lia))).
  subst tokens. split; [exact B|]. split.
  - subst half. pose proof (nondecreasing_idx _ _ _ _ _ _ _ R) as [I _]. unfold ntokens in I.
    apply Forall_map. apply Forall_rev in I. revert I. apply Forall_impl. intros h Hh. destruct (half_state s h) as (_ & -> & _). exact Hh.
  - intros St. apply (sticks_total _ _ _ _ _ _ _ R) in St. lia.
Qed.

(** Used for the examples: a run exists if the loop does not raise. *)
Lemma runs_exists L go e0 evs pls :
  match init_round go e0 with Ok (n, s0) => is_ok (foldM (step L n) s0 evs) | Err _ => false end = true ->
  map play_of evs = map Some pls -> exists n s, runs L go e0 evs n s pls.
Proof.
  intros H P. destruct (init_round go e0) as [[n s0]|] eqn:E; [|discriminate].
  destruct (foldM (step L n) s0 evs) as [s|] eqn:F; [|discriminate]. exists n, s, s0. auto.
Qed.
(** All queries that explain the recorded answer have the same answer. *)
Lemma win_if_inj a b p : win_if a p = win_if b p -> a = b.
Proof. now destruct a, b. Qed.
Lemma ron_asks_same L s w p q q' : ron_asks L s w p q -> ron_asks L s w p q' -> l_agari L q = l_agari L q'.
Proof.
  intros (b & so & ds & li & i & r & A & B & C) (b' & so' & ds' & li' & i' & r' & A' & B' & C').
  rewrite B in B'. assert (ds = ds') as <- by congruence. rewrite C in C'. assert (W : win_if b p = win_if b' p) by congruence.
  apply win_if_inj in W. congruence.
Qed.
Lemma tsumo_asks_same L s w q q' : tsumo_asks L s w q -> tsumo_asks L s w q' -> l_agari L q = l_agari L q'.
Proof.
  intros (b & so & ds & i & r & A & B) (b' & so' & ds' & i' & r' & A' & B').
  rewrite B in B'. assert (W : win_if b w = win_if b' w) by congruence. apply win_if_inj in W. congruence.
Qed.

(** ** The step count *)
Lemma steps_app a b : steps (a ++ b) = steps a + steps b.
Proof. unfold steps. induction a as [|x a IH]; cbn [app fold_right]; [reflexivity|]. rewrite IH. lia. Qed.
Lemma from_who_mod c : from_who c = c mod 4.
Proof. unfold from_who. change 3 with (Z.ones 2). now rewrite Z.land_ones by lia. Qed.
Lemma steps_exact L go e0 evs n s pls : runs L go e0 evs n s pls -> s_cycles s = steps pls.
Proof.
  intros R. eapply (runs_inv_full _ _ _ _ _ _ _ (fun h s => s_cycles s = steps h)) in R; [exact (proj1 R)| |]; clear.
  - intros s0 In0 _. destruct (in_rest _ _ In0) as (_ & _ & _ & _ & _ & _ & H1 & H2 & H3 & _). exact H2.
  - intros h a s s' W S I G E Es. rewrite steps_app.
    apply strip_fields in Es as (_ & _ & _ & _ & _ & _ & _ & _ & _ & _ & _ & _ & _ & _ & _ & Ec & Ea). rewrite Ec, ap_cycles, I.
    assert (E1 : steps [a] = play_steps a) by apply Z.add_0_r. rewrite E1. destruct a as [w t|w t|w c|w|w|t]; cbn [play_steps]; try lia.
    rewrite from_who_mod. fold (is_any_kan c). destruct (is_any_kan c); cbn [b2z]; lia.
Qed.
Lemma never_opened_snoc pls a : (forall w c, a <> PlCall w c) -> (never_opened (pls ++ [a]) <-> never_opened pls).
Proof.
  intros N. split; [apply never_opened_app|]. intros H p Hp (c & Hin & Hc). apply in_app_iff in Hin as [Hin|[Hin|[]]].
  - apply (H p Hp). now exists c.
  - exact (N _ _ Hin).
Qed.

Lemma chiihou_exact L go e0 evs n s' pls w t : runs L go e0 evs n s' (pls ++ [PlDraw w t]) ->
  exists q, tsumo_asks L s' w q /\ (q_chiihou q = true <-> never_opened pls /\ 1 <= steps pls <= 3).
Proof.
  intros R. destruct (tsumo_query _ _ _ _ _ _ _ _ _ R) as (q & Hq & _ & _ & _ & _ & _ & _ & _ & _ & _ & _ & _ & Hc).
  exists q. split; [exact Hq|]. rewrite Hc, !andb_true_iff, !Z.leb_le, (steps_exact _ _ _ _ _ _ _ R), steps_app.
  change (steps [PlDraw w t]) with 1. rewrite (all_set_menzen _ _ _ _ _ _ _ R). fold (never_opened (pls ++ [PlDraw w t])).
  rewrite never_opened_snoc by discriminate. intuition lia.
Qed.

Lemma renhou_exact L go e0 evs n s' pls w t p : runs L go e0 evs n s' (pls ++ [PlDiscard w t]) -> 0 <= p < 4 ->
  p <> w -> ~ furiten p t pls -> exists q, ron_asks L s' w p q /\
   (q_renhou q = true <-> never_opened pls /\ steps pls <= 3 /\ steps pls <= w).
Proof.
  intros R Hp N F. destruct (ron_query _ _ _ _ _ _ _ _ _ R p Hp) as [_ A].
  destruct (A N F) as (q & B & _ & _ & _ & _ & _ & _ & _ & _ & _ & _ & _ & Hr). exists q. split; [exact B|].
  rewrite Hr, !andb_true_iff, !Z.leb_le, (steps_exact _ _ _ _ _ _ _ R), steps_app.
  change (steps [PlDiscard w t]) with 0. rewrite (all_set_menzen _ _ _ _ _ _ _ R). fold (never_opened (pls ++ [PlDiscard w t])).
  rewrite never_opened_snoc by discriminate. rewrite Z.add_0_r. tauto.
Qed.

Lemma dreach_exact L go e0 evs n s pls p : runs L go e0 evs n s pls -> 0 <= p < 4 ->
  (flag (s_dreaches s) p = 1 <-> exists h1 h2, pls = h1 ++ PlReach2 p :: h2 /\ never_opened h1 /\ steps h1 <= 4).
Proof.
  revert evs s. induction pls as [|a h IH] using rev_ind; intros evs s R Hp.
  - split.
    + intros Hf. destruct (flags_exact _ _ _ _ _ _ _ p R Hp) as (F & _ & _ & D & _). apply D, F in Hf. destruct Hf.
    + intros ([|? h1] & h2 & E & _); discriminate E.
  - destruct (runs_snoc _ _ _ _ _ _ _ _ R) as (evs1 & ev & s1 & _ & R1 & W & S & E & G & Es).
    apply strip_fields in Es as (_ & _ & _ & _ & _ & _ & _ & _ & _ & _ & _ & Ed & _). rewrite Ed, ap_dreaches. clear Ed.
    specialize (IH _ _ R1 Hp).
    assert (Sp : (exists h1 h2, h ++ [a] = h1 ++ PlReach2 p :: h2 /\ never_opened h1 /\ steps h1 <= 4) <->
                 (exists h1 h2, h = h1 ++ PlReach2 p :: h2 /\ never_opened h1 /\ steps h1 <= 4) \/ (a = PlReach2 p /\ never_opened h /\ steps h <= 4)).
    { split.
      - intros (h1 & h2 & Eq & Q). destruct h2 as [|x h2 _] using rev_ind.
        + apply app_inj_tail in Eq as [-> ->]. auto.
        + rewrite app_comm_cons, app_assoc in Eq. apply app_inj_tail in Eq as [-> _]. left. now exists h1, h2.
      - intros [(h1 & h2 & -> & Q)|(-> & Q)]; [exists h1, (h2 ++ [a])|exists h, []]; [rewrite <- app_assoc|]; split; auto. }
    rewrite Sp, <- IH. clear Sp IH.
    destruct a as [w t|w t|w c|w|w|t]; try (split; [auto|intros [H|[H _]]; [exact H|discriminate H]]).
    pose proof (guard_seat _ _ S G) as Qw. cbv beta iota in Qw.
    pose proof (steps_exact _ _ _ _ _ _ _ R1) as St. pose proof (all_set_menzen _ _ _ _ _ _ _ R1) as M. fold (never_opened h) in M.
    destruct W as (_ & _ & _ & _ & _ & _ & _ & _ & _ & _ & _ & _ & LD & _). unfold flag.
    destruct ((s_cycles s1 <=? 4) && all_set (s_menzen s1)) eqn:Ec.
    + apply andb_prop in Ec as [Ec Em]. apply Z.leb_le in Ec. rewrite St in Ec. apply M in Em.
      rewrite vget_vset by (rewrite LD; lia). destruct (Nat.eqb_spec (Z.to_nat w) (Z.to_nat p)) as [Ew|Ew].
      * assert (w = p) by lia. subst w. split; auto.
      * split; [auto|]. intros [H|[H _]]; [exact H|]. exfalso. injection H as ->. auto.
    + split; [auto|]. intros [H|(H & N & Le)]; [exact H|]. exfalso. apply M in N. rewrite N in Ec.
      destruct (Z.leb_spec (s_cycles s1) 4); [discriminate Ec|lia].
Qed.
