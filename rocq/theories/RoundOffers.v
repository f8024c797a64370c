(** Offers recorded with draws and discards. *)
From Coq Require Import ZArith List Bool Lia Permutation.
From Verif Require Import Base Constants Naki Decision GameInfo Agari Process VecLemmas SpecMeld SpecTokens SpecRound SpecTurn SpecLabels SpecDecision SpecOffers
  NakiLemmas DecisionLemmas DecisionExact RoundLemmas RoundTiles RoundInv RoundInit RoundBook RoundFlags RoundSplit RoundHalf RoundFacts RoundQuery RoundCount RoundLabels RoundMelds.
Import ListNotations.
Open Scope Z_scope.

Lemma num_type t hl : 0 <= t < 34 -> num (Z.to_nat t) hl = of_type t hl.
Proof.
  intros B. unfold num, of_type. f_equal. f_equal. apply filter_ext. intros x. unfold in_class.
  destruct (Nat.ltb_spec (Z.to_nat t) 34); [|lia]. rewrite Z2Nat.id by lia. reflexivity.
Qed.

Lemma nth_firstn_lt (v : list Z) m : forall k, (k < m)%nat -> nth k (firstn m v) 0 = nth k v 0.
Proof. revert m. induction v as [|x v IH]; intros [|m] k H; try lia; [reflexivity|]. destruct k; [reflexivity|]. cbn [firstn nth]. apply IH. lia. Qed.

Lemma vec_by_type v hl : List.length v = 37%nat -> (forall k, (k < 37)%nat -> vget v k = num k hl) -> firstn 34 v = by_type hl.
Proof.
  intros Lv H. apply nth_ext with (d := 0) (d' := 0).
  { unfold by_type. rewrite firstn_length, map_length, seq_length, Lv. reflexivity. }
  rewrite firstn_length, Lv. intros k Hk. change (Nat.min 34 37) with 34%nat in Hk. rewrite (nth_firstn_lt v 34 k) by exact Hk. symmetry.
  unfold by_type. rewrite (nth_indep (map _ _) 0 (of_type (Z.of_nat 0) hl)) by (rewrite map_length, seq_length; exact Hk).
  rewrite (map_nth (fun t => of_type (Z.of_nat t) hl)), seq_nth by exact Hk. cbn [Nat.add].
  rewrite <- num_type by lia. rewrite Nat2Z.id. symmetry. apply H. lia.
Qed.

Lemma wf_after L go e0 evs n s pls : runs L go e0 evs n s pls -> wf s.
Proof. intros R. eapply (runs_inv _ _ _ _ _ _ _ (fun _ _ => True)) in R; [apply R|auto..]. Qed.

(** ** Riichi *)
Lemma reach_draw p w t pls : In (PlReach2 p) (pls ++ [PlDraw w t]) <-> In (PlReach2 p) pls.
Proof. rewrite in_app_iff. cbn [In]. split; [intros [H|[H|[]]]; [exact H|discriminate H]|auto]. Qed.
Lemma opened_draw p w t pls : opened p (pls ++ [PlDraw w t]) <-> opened p pls.
Proof.
  unfold opened. split; intros (c & I & N); exists c; (split; [|exact N]).
  - rewrite in_app_iff in I. cbn [In] in I. destruct I as [I|[I|[]]]; [exact I|discriminate I].
  - rewrite in_app_iff. now left.
Qed.

Lemma reach_cong L p s s' : s_reaches s = s_reaches s' -> s_menzen s = s_menzen s' -> s_ht s = s_ht s' ->
  reach_candidates L p s = reach_candidates L p s'.
Proof. intros A B C. unfold reach_candidates. now rewrite A, B, C. Qed.

Lemma draw_riichi L n s w t s' : wf s -> 0 <= w < 4 -> draw_step L n s (Z.to_nat w) t = Ok s' -> strip s' = strip (apply (PlDraw w t) s) ->
  exists re, riichi_offers s' w re /\ reach_candidates L (Z.to_nat w) s' = Ok re.
Proof.
  intros W S E Es. assert (Ew : w = Z.of_nat (Z.to_nat w)) by lia.
  apply draw_inv in E as (_ & ag & re & ank & kak & _ & Hr & _ & _ & Ed); [|lia|exact W].
  destruct (at_draw_fields w t s ltac:(lia)) as (_ & G1 & _ & _ & _ & _ & _ & _ & G2 & G3 & _).
  apply strip_fields in Es as (_ & K & _ & _ & _ & _ & _ & _ & _ & _ & K1 & _ & _ & K2 & _).
  rewrite <- K1 in G1. rewrite <- K2 in G2. rewrite <- K in G3. clear K K1 K2.
  rewrite (reach_cong _ _ _ _ G1 G2 G3) in Hr. clear G1 G2 G3.
  rewrite <- Ew in Ed. apply (f_equal s_half) in Ed. rewrite draw_half_of in Ed.
  exists re. split; [|exact Hr]. eexists _, ag, (ank ++ kak), _, _. exact Ed.
Qed.

Lemma riichi_exact L go e0 evs n s' pls w t : runs L go e0 evs n s' (pls ++ [PlDraw w t]) ->
  exists hl re, concealed e0 (pls ++ [PlDraw w t]) w hl /\ riichi_offers s' w re /\
    (In (PlReach2 w) pls \/ opened w pls -> re = []) /\
    (~ In (PlReach2 w) pls -> ~ opened w pls ->
       exists sh, l_shanten L (by_type hl) = Ok sh /\ re = if sh <=? 0 then [ReachDecision w false] else []).
Proof.
  intros R. destruct (runs_snoc _ _ _ _ _ _ _ _ R) as (evs1 & ev & s & _ & R1 & W & S & E & _ & Es).
  cbn [seated] in S. cbn [astep] in E. assert (Ew : w = Z.of_nat (Z.to_nat w)) by lia.
  destruct (hands_exact _ _ _ _ _ _ _ w R S) as (hl & _ & _ & Hp & _ & Hv & _).
  pose proof (wf_after _ _ _ _ _ _ _ R) as W'. destruct W' as (_ & _ & L1 & L2 & _).
  pose proof (flags_exact _ _ _ _ _ _ _ w R S) as (F1 & F2 & _ & _ & F3 & F4 & _).
  rewrite reach_draw in F1, F2. rewrite opened_draw in F3, F4.
  destruct (draw_riichi _ _ _ _ _ _ W S E Es) as (re & Ho & Hr). clear E Es. unfold reach_candidates in Hr. rewrite <- Ew in Hr.
  assert (Lv : List.length (row (s_ht s') (Z.to_nat w)) = 37%nat).
  { unfold row. rewrite Forall_forall in L2. apply L2. apply nth_In. lia. }
  rewrite (vec_by_type _ hl Lv) in Hr by (intros k Hk; apply (Hv k Hk)).
  change (vget (s_reaches s') (Z.to_nat w)) with (flag (s_reaches s') w) in Hr.
  change (vget (s_menzen s') (Z.to_nat w)) with (flag (s_menzen s') w) in Hr.
  exists hl, re. split; [exact Hp|]. split; [exact Ho|]. split.
  - intros [I|O].
    + apply F1 in I. rewrite I in Hr. now apply Ok_inj in Hr.
    + apply F3 in O. rewrite O, andb_false_r in Hr. now apply Ok_inj in Hr.
  - intros I O. apply F2 in I. apply F4 in O. rewrite I, O in Hr. cbn [truthy negb Z.eqb andb] in Hr.
    apply bind_ok in Hr as (sh & Hs & Hr). apply Ok_inj in Hr. exists sh. auto.
Qed.

(** ** Calls *)
Lemma post_half_of t x h1 h2 sa : s_half (add_token t (set_cur x (add_half h1 (add_half h2 sa)))) = h1 :: h2 :: s_half sa.
Proof. now destruct sa. Qed.

Lemma discard_offers L go e0 evs n s' pls w t : runs L go e0 evs n s' (pls ++ [PlDiscard w t]) ->
  exists nakis, decision_mask w (s_ht s') (tid t / 4) (red_fiveb (tid t)) = Ok nakis /\
    forall q, 0 <= q < 4 -> call_offers s' w q (if q =? w then [] else offered nakis q).
Proof.
  intros R. destruct (runs_snoc _ _ _ _ _ _ _ _ R) as (evs1 & ev & s & _ & R1 & W & S & E & _ & Es).
  cbn [seated] in S. cbn [astep] in E. assert (Ew : w = Z.of_nat (Z.to_nat w)) by lia.
  apply discard_inv in E as (_ & so & acq & tok & rons & nakis & _ & _ & _ & _ & Em & _ & Ed); [|lia|exact W].
  rewrite <- Ew in *. apply strip_fields in Es as (_ & K & _). rewrite <- K in Em. clear K.
  apply (f_equal s_half) in Ed. rewrite post_half_of in Ed.
  rewrite (proj1 (tix_hd t)) in Em. pose proof (tid_range t) as B.
  rewrite Z2Nat.id in Em by (apply Z.div_pos; lia).
  assert (Er : Nat.eqb (List.length (tix t)) 2 = red_fiveb (tid t)).
  { assert (Q : forallb (fun i => eqb (Nat.eqb (List.length (nth i TILE2IDX_list [])) 2) (red_fiveb (Z.of_nat i))) (seq 0 136) = true) by (vm_compute; reflexivity).
    rewrite forallb_forall in Q. specialize (Q (Z.to_nat (tid t))). rewrite in_seq in Q. specialize (Q ltac:(lia)).
    apply eqb_prop in Q. rewrite Z2Nat.id in Q by lia. exact Q. }
  rewrite Er in Em. exists nakis. split; [exact Em|]. intros q Hq. eexists so, _, _, _, _. split; [exact Ed|].
  rewrite dec_lists_nth by lia. f_equal. f_equal. f_equal.
  destruct (Z.eqb_spec q w) as [->|N]; [now rewrite Nat.eqb_refl|]. rewrite (proj2 (Nat.eqb_neq _ _)) by lia. reflexivity.
Qed.

Lemma red_of_num t hl : 0 <= t < 34 -> Forall (fun x => 0 <= x < 136) hl -> (0 < num (Z.to_nat (34 + t / 9)) hl <-> has_red_of t hl).
Proof.
  intros B F. rewrite num_pos. unfold has_red_of.
  assert (C : 0 <= t / 9 < 4) by (split; [apply Z.div_pos; lia|apply Z.div_lt_upper_bound; lia]).
  assert (Q : forallb (fun x => eqb (in_class (Z.to_nat (34 + t / 9)) (Z.of_nat x)) (red_fiveb (Z.of_nat x) && (Z.of_nat x / 36 =? t / 9))) (seq 0 136) = true).
  { revert C. generalize (t / 9). intros k C. assert (K : k = 0 \/ k = 1 \/ k = 2 \/ k = 3) by lia.
    destruct K as [->|[->|[->| ->]]]; vm_compute; reflexivity. }
  rewrite forallb_forall in Q. rewrite Forall_forall in F. split.
  - intros (x & I & K). exists x. split; [exact I|]. specialize (F x I). specialize (Q (Z.to_nat x)). rewrite in_seq in Q. specialize (Q ltac:(lia)).
    apply eqb_prop in Q. rewrite Z2Nat.id in Q by lia. rewrite K in Q. symmetry in Q. apply andb_prop in Q as [Q1 Q2]. apply Z.eqb_eq in Q2. auto.
  - intros (x & I & K1 & K2). exists x. split; [exact I|]. specialize (F x I). specialize (Q (Z.to_nat x)). rewrite in_seq in Q. specialize (Q ltac:(lia)).
    apply eqb_prop in Q. rewrite Z2Nat.id in Q by lia. rewrite Q, K1, K2. apply Z.eqb_refl.
Qed.

Lemma calls_exact L go e0 evs n s pls w t q : runs L go e0 evs n s (pls ++ [PlDiscard w t]) -> 0 <= q < 4 ->
  exists hl calls, concealed e0 (pls ++ [PlDiscard w t]) q hl /\ call_offers s w q calls /\
    (q = w -> calls = []) /\
    (forall d, In d calls -> exists nk k, d = NakiDecision q nk false /\ spec_kind (nk_code nk) = Some k /\
       (k = Chi \/ k = Pon \/ k = Minkan) /\ (q + from_who (nk_code nk)) mod 4 = w /\ (k = Chi -> q = (w + 1) mod 4) /\
       (~ (k = Chi /\ has_red_of (tid t / 4) hl /\ tid t / 4 < 27 /\ (tid t / 4 mod 9 = 3 \/ tid t / 4 mod 9 = 5) /\
           p_number (pattern_chi (nk_code nk)) = tid t / 4 mod 9 - 1) ->
        exists ex a, get_exposed (nk_code nk) = Ok (ex, Some a) /\ tile_type a = tid t / 4 /\
          forall x, 0 <= x < 34 -> Z.of_nat (count_occ Z.eq_dec (map tile_type ex) x) <= of_type x hl)) /\
    (q <> w ->
      (some_call Pon calls <-> of_type (tid t / 4) hl = 2 \/
         (of_type (tid t / 4) hl = 3 /\ five_type (tid t / 4) /\ has_red_of (tid t / 4) hl)) /\
      (some_call Minkan calls <-> of_type (tid t / 4) hl = 3)).
Proof.
  intros R Hq. destruct (discard_offers _ _ _ _ _ _ _ _ _ R) as (nakis & Em & Ho). specialize (Ho q Hq).
  assert (Hw : 0 <= w < 4) by (destruct (runs_snoc _ _ _ _ _ _ _ _ R) as (evs1 & ev & s1 & _ & _ & _ & S & _); exact S).
  destruct (hands_exact _ _ _ _ _ _ _ q R Hq) as (hl & _ & Hf & Hp & _ & Hv & _).
  pose proof (wf_after _ _ _ _ _ _ _ R) as W. destruct W as (_ & _ & L1 & L2 & _).
  assert (Lv : List.length (vec (s_ht s) q) = 37%nat).
  { unfold vec, row. rewrite Forall_forall in L2. apply L2. apply nth_In. lia. }
  set (T := tid t / 4) in *. assert (Ht : 0 <= T < 34).
  { unfold T. pose proof (tid_range t). split; [apply Z.div_pos; lia|apply Z.div_lt_upper_bound; lia]. }
  clearbody T.
  change (hand_of (s_ht s) q) with (vec (s_ht s) q).
  assert (Hn : forall x, 0 <= x < 37 -> hget (vec (s_ht s) q) x = num (Z.to_nat x) hl) by (intros x Hx; unfold hget; apply Hv; lia).
  assert (Hb : forall x, 0 <= hget (vec (s_ht s) q) x).
  { intros x. unfold hget. destruct (Nat.lt_ge_cases (Z.to_nat x) 37) as [K|K]; [destruct (Hv _ K); lia|].
    unfold vget. rewrite nth_overflow by lia. lia. }
  assert (Hr : 0 < hget (vec (s_ht s) q) (34 + T / 9) <-> has_red_of T hl).
  { rewrite <- (red_of_num T hl Ht Hf). destruct (Z.le_gt_cases 27 T) as [K|K].
    - assert (T / 9 = 3) as -> by (symmetry; apply (Z.div_unique _ _ _ (T - 27)); lia).
      split; intros G; exfalso; revert G; [unfold hget, vget; rewrite nth_overflow by lia; lia|].
      apply Z.le_ngt. unfold num. replace (filter (in_class (Z.to_nat (34 + 3))) hl) with (@nil Z); [cbn; lia|].
      clear. induction hl as [|x l IH]; [reflexivity|]. exact IH.
    - rewrite Hn; [reflexivity|]. assert (0 <= T / 9 < 3) by (split; [apply Z.div_pos; lia|apply Z.div_lt_upper_bound; lia]). lia. }
  exists hl. eexists. split; [exact Hp|]. split; [exact Ho|]. split; [intros ->; now rewrite Z.eqb_refl|].
  destruct (right_players w (s_ht s) T _ nakis L1 Hw Ht Em) as [P0 P1]. split.
  - intros d I. destruct (Z.eqb_spec q w) as [->|N]; [contradiction|].
    destruct (P1 q d Hq I) as (nk & k & Ed & Sk & K1 & K2 & K3). exists nk, k. repeat (split; [assumption|]). intros NC.
    destruct (playable w (s_ht s) T _ nakis q d nk L1 Hw Ht Hq Hb Em I Ed) as (ex & a & E1 & E2 & E3).
    { intros (C1 & C2 & C3 & C4 & C5). apply NC. rewrite C4 in Sk. injection Sk as <-. apply Hr in C1. auto. }
    exists ex, a. split; [exact E1|]. split; [exact E2|]. intros x Hx. rewrite <- num_type by exact Hx.
    rewrite <- Hn by lia. apply E3.
  - intros N. rewrite (proj2 (Z.eqb_neq q w) N).
    destruct (pon_minkan_exact w (s_ht s) T _ nakis q L1 Hw Ht Hq N Em) as [A B].
    change (hand_of (s_ht s) q) with (vec (s_ht s) q) in A, B. rewrite Hr in A.
    rewrite (Hn T) in A, B by lia. rewrite num_type in A, B by exact Ht.
    assert (Q : forall k, some_call k (offered nakis q) <-> offers_kind k nakis q).
    { intros k. split.
      - intros (p & nk & e & I & Sk). destruct (P1 q _ Hq I) as (nk' & k' & Ed & _). injection Ed as -> -> ->. exists nk'. auto.
      - intros (nk & I & Sk). exists q, nk, false. auto. }
    rewrite !Q. auto.
Qed.

Lemma chi_offers L go e0 evs n s pls w t : runs L go e0 evs n s (pls ++ [PlDiscard w t]) -> tid t / 4 < 27 ->
  let q := (w + 1) mod 4 in
  exists hl calls, concealed e0 (pls ++ [PlDiscard w t]) q hl /\ call_offers s w q calls /\
  forall st nb pl red, (exists nk, In (NakiDecision q nk false) calls /\ chi_of (nk_code nk) st nb pl red) <->
    st = tid t / 4 / 9 /\ chi_rule (counts hl) (tid t / 4) (red_fiveb (tid t)) nb pl red.
Proof.
  intros R H27 q. destruct (discard_offers _ _ _ _ _ _ _ _ _ R) as (nakis & Em & Ho).
  assert (Hw : 0 <= w < 4) by (destruct (runs_snoc _ _ _ _ _ _ _ _ R) as (evs1 & ev & s1 & _ & _ & _ & S & _); exact S).
  assert (Hq : 0 <= q < 4) by (apply Z.mod_pos_bound; lia). specialize (Ho q Hq).
  assert (N : q <> w) by (unfold q; intros E; assert (C : w = 0 \/ w = 1 \/ w = 2 \/ w = 3) by lia; destruct C as [->|[->|[->| ->]]]; discriminate E).
  rewrite (proj2 (Z.eqb_neq q w) N) in Ho.
  destruct (hands_exact _ _ _ _ _ _ _ q R Hq) as (hl & _ & Hf & Hp & _ & Hv & _).
  pose proof (wf_after _ _ _ _ _ _ _ R) as W. destruct W as (_ & _ & L1 & L2 & _).
  assert (Lv : List.length (vec (s_ht s) q) = 37%nat).
  { unfold vec, row. rewrite Forall_forall in L2. apply L2. apply nth_In. lia. }
  assert (Hb : forall x, 0 <= hget (vec (s_ht s) q) x).
  { intros x. unfold hget. destruct (Nat.lt_ge_cases (Z.to_nat x) 37) as [K|K]; [destruct (Hv _ K); lia|].
    unfold vget. rewrite nth_overflow by lia. lia. }
  assert (Ec : vec (s_ht s) q = counts hl).
  { apply nth_ext with (d := 0) (d' := 0); [unfold counts; now rewrite map_length, seq_length, Lv|].
    intros k Hk. rewrite Lv in Hk. unfold counts. rewrite (nth_indep (map (fun k => num k hl) (seq 0 37)) 0 (num 0 hl)) by (rewrite map_length, seq_length; exact Hk).
    rewrite (map_nth (fun k => num k hl)), seq_nth by exact Hk. apply (Hv k Hk). }
  assert (Ht : 0 <= tid t / 4) by (pose proof (tid_range t); apply Z.div_pos; lia).
  exists hl, (offered nakis q). split; [exact Hp|]. split; [exact Ho|]. intros st nb pl red. rewrite <- Ec.
  exact (chi_exact w (s_ht s) (tid t / 4) (red_fiveb (tid t)) nakis L1 Hw (conj Ht H27) Hb Em st nb pl red).
Qed.

(** The offers are a function of the discard and the concealed hands. *)
Lemma perm_num a b k : Permutation a b -> num k a = num k b.
Proof. induction 1; unfold num in *; cbn [filter]; repeat destruct (in_class k _); cbn [List.length] in *; lia. Qed.

Lemma rows_ext m m' : List.length m = 4%nat -> List.length m' = 4%nat -> Forall (fun r : list Z => List.length r = 37%nat) m -> Forall (fun r => List.length r = 37%nat) m' ->
  (forall p k, 0 <= p < 4 -> (k < 37)%nat -> vget (vec m p) k = vget (vec m' p) k) -> m = m'.
Proof.
  intros L1 L2 F1 F2 H. apply nth_ext with (d := []) (d' := []); [lia|]. intros i Hi. rewrite Forall_forall in F1, F2.
  apply nth_ext with (d := 0) (d' := 0).
  - rewrite F1, F2 by (apply nth_In; lia). reflexivity.
  - intros k Hk. rewrite F1 in Hk by (apply nth_In; lia). specialize (H (Z.of_nat i) k ltac:(lia) Hk).
    unfold vec, row in H. rewrite Nat2Z.id in H. exact H.
Qed.

Lemma hands_only L L' go go' e0 e0' evs evs' n n' s s' pls pls' w t :
  runs L go e0 evs n s (pls ++ [PlDiscard w t]) -> runs L' go' e0' evs' n' s' (pls' ++ [PlDiscard w t]) ->
  (forall p, 0 <= p < 4 -> exists hl, concealed e0 (pls ++ [PlDiscard w t]) p hl /\ concealed e0' (pls' ++ [PlDiscard w t]) p hl) ->
  forall q, 0 <= q < 4 -> exists calls, call_offers s w q calls /\ call_offers s' w q calls.
Proof.
  intros R R' H q Hq. destruct (discard_offers _ _ _ _ _ _ _ _ _ R) as (nakis & Em & Ho). destruct (discard_offers _ _ _ _ _ _ _ _ _ R') as (nakis' & Em' & Ho').
  assert (E : s_ht s = s_ht s').
  { pose proof (wf_after _ _ _ _ _ _ _ R) as (_ & _ & L1 & L2 & _). pose proof (wf_after _ _ _ _ _ _ _ R') as (_ & _ & L1' & L2' & _).
    apply rows_ext; [exact L1|exact L1'|exact L2|exact L2'|]. intros p k Hp Hk. destruct (H p Hp) as (hl & C1 & C2).
    destruct (hands_exact _ _ _ _ _ _ _ p R Hp) as (h1 & _ & _ & P1 & _ & V1 & _).
    destruct (hands_exact _ _ _ _ _ _ _ p R' Hp) as (h2 & _ & _ & P2 & _ & V2 & _).
    rewrite (proj1 (V1 k Hk)), (proj1 (V2 k Hk)). unfold concealed in C1, C2.
    rewrite C1 in P1. rewrite C2 in P2. apply Permutation_app_inv_l, Permutation_app_inv_l in P1. apply Permutation_app_inv_l, Permutation_app_inv_l in P2.
    rewrite <- (perm_num _ _ k P1), <- (perm_num _ _ k P2). reflexivity. }
  rewrite <- E in Em'. rewrite Em in Em'. apply Ok_inj in Em'. subst nakis'. eexists. split; [exact (Ho q Hq)|exact (Ho' q Hq)].
Qed.
