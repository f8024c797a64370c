(** Which decisions are marked as executed (C37), and the self-turn candidates (C38). *)
From Coq Require Import ZArith List Bool String Ascii Lia PeanoNat.
From Verif Require Import Base Constants Naki Decision Tokens GameInfo Agari Process VecLemmas
  SpecMeld SpecTokens SpecRound SpecDecision SpecTurn SpecLabels NakiProofs NakiLemmas NakiCore NakiLemmas2 TokensLemmas DecisionProofs DecisionLemmas
  RoundLemmas RoundInv RoundTiles RoundInit RoundBook RoundFlags RoundSplit RoundHalf RoundFacts RoundQuery.
Import ListNotations.
Open Scope Z_scope.

(** ** exec_match and exec_first *)
Lemma exec_match_cases c l :
  (exists l1 d l2, l = l1 ++ d :: l2 /\ exec_match c l = l1 ++ set_executed d :: l2 /\ matches c d = true) \/
  (exec_match c l = l /\ Forall (fun d => matches c d = false) l).
Proof.
  induction l as [|d l IH]; cbn [exec_match]; [right; split; [reflexivity|constructor]|].
  destruct (matches c d) eqn:E.
  - left. exists [], d, l. auto.
  - destruct IH as [(l1 & d' & l2 & -> & -> & M)|[-> F]].
    + left. exists (d :: l1), d', l2. auto.
    + right. split; [reflexivity|constructor; assumption].
Qed.

Lemma nmarked_app a b : nmarked (a ++ b) = (nmarked a + nmarked b)%nat.
Proof. unfold nmarked. now rewrite filter_app, app_length. Qed.
Lemma unmarked_n l : unmarked l -> nmarked l = 0%nat.
Proof. unfold unmarked, nmarked. induction 1 as [|d l Hd _ IH]; [reflexivity|]. cbn [filter]. now rewrite Hd. Qed.
Lemma unmarked_app a b : unmarked (a ++ b) <-> unmarked a /\ unmarked b.
Proof. apply Forall_app. Qed.
Lemma nmarked_cons d l : nmarked (d :: l) = ((if d_executed d then 1 else 0) + nmarked l)%nat.
Proof. unfold nmarked. cbn [filter]. now destruct (d_executed d). Qed.
Lemma set_executed_marked d : d_executed (set_executed d) = true.
Proof. now destruct d. Qed.
Lemma set_executed_player d : d_player (set_executed d) = d_player d.
Proof. now destruct d. Qed.
Lemma of_player_app p a b : of_player p (a ++ b) <-> of_player p a /\ of_player p b.
Proof. apply Forall_app. Qed.

Lemma exec_match_n c l : unmarked l -> (nmarked (exec_match c l) <= 1)%nat /\
  (Forall (fun d => matches c d = false) l -> nmarked (exec_match c l) = 0%nat).
Proof.
  intros U. destruct (exec_match_cases c l) as [(l1 & d & l2 & El & -> & M)|[-> F]].
  - subst l. apply unmarked_app in U as [U1 U2]. inversion U2 as [|x y Hd U3]; subst.
    rewrite nmarked_app, nmarked_cons, set_executed_marked, !unmarked_n by assumption. split; [lia|].
    intros F. apply Forall_app in F as [_ F]. inversion F; congruence.
  - rewrite unmarked_n by assumption. auto.
Qed.
Lemma exec_match_player c p l : of_player p l -> of_player p (exec_match c l).
Proof.
  intros U. destruct (exec_match_cases c l) as [(l1 & d & l2 & El & -> & M)|[-> F]]; [|exact U].
  subst l. apply of_player_app in U as [U1 U2]. inversion U2 as [|x y Hd U3]; subst.
  apply of_player_app. split; [assumption|]. constructor; [apply set_executed_player|assumption].
Qed.
Lemma exec_first_n l : (List.length l <= 1)%nat -> (nmarked (exec_first l) <= 1)%nat.
Proof. destruct l as [|d [|]]; cbn [List.length exec_first]; intros; [cbn; lia| |lia]. rewrite nmarked_cons, set_executed_marked. cbn. lia. Qed.

(** ** Candidates that have just been offered *)
Definition fresh_during (p : Z) (d : decision) : Prop := exists nk, d = NakiDecision p nk false /\ nk_conv nk = nk_code nk.
Definition fresh_post (p q : Z) (d : decision) : Prop :=
  exists nk, d = NakiDecision q nk false /\ nk_conv nk = nk_code nk /\ (q + from_who (nk_code nk)) mod 4 = p.

Lemma fresh_same c nkc w d : mk_naki c = Ok nkc -> (exists e, get_exposed c = Ok e) -> fresh_during w d -> matches (nk_conv nkc) d = true -> same_call w c d.
Proof.
  intros Hn ((ex & a) & He) (nk & -> & R) M. cbn [matches] in M. apply Z.eqb_eq in M. rewrite R in M.
  destruct (normalise c nkc ex a Hn He) as (_ & K & F & ex' & a' & He' & T1 & T2). rewrite <- M in *.
  exists nk, false, ex, a, ex', a'. split; [reflexivity|]. split; [exact He|]. split; [exact He'|]. split; [exact K|]. split; [exact F|].
  split; [exact T1|]. split; [exact T2|]. intros Nk. rewrite M in He'. exact (red_preserved c nkc ex a ex' a' Hn Nk He He').
Qed.

Lemma fresh_normal c nkc p d : mk_naki c = Ok nkc -> fresh_during p d -> (matches (nk_conv nkc) d = true <-> normal_form_of c d).
Proof.
  intros Hn (nk & -> & R). cbn [matches]. rewrite Z.eqb_eq, R. unfold normal_form_of. split.
  - intros M. exists nkc, p, nk, false. auto.
  - intros (nk1 & w & nk2 & e & E1 & E2 & E3). rewrite Hn in E1. apply Ok_inj in E1. subst nk1. injection E2 as _ <- _. exact E3.
Qed.

Lemma fresh_marks c nkc w l : mk_naki c = Ok nkc -> (exists e, get_exposed c = Ok e) -> Forall (fresh_during w) l ->
  call_marks w c l (exec_match (nk_conv nkc) l).
Proof.
  intros Hn He F. destruct (exec_match_cases (nk_conv nkc) l) as [(l1 & d & l2 & -> & -> & M)|[-> N]].
  - left. apply Forall_app in F as [_ F]. inversion F as [|x y Fd _]; subst. split.
    + exists l1, d, l2. split; [reflexivity|]. split; [reflexivity|]. now apply (fresh_same c nkc).
    + apply Exists_app. right. constructor. apply (fresh_normal c nkc w d); assumption.
  - right. split; [reflexivity|]. intros E. apply Exists_exists in E as (d & I1 & I2).
    rewrite Forall_forall in F, N. apply (fresh_normal c nkc w d Hn (F d I1)) in I2. rewrite (N d I1) in I2. discriminate.
Qed.

Lemma ankan_cand_fresh p h l : ankan_candidates p h = Ok l -> Forall (fresh_during (Z.of_nat p)) l.
Proof.
  unfold ankan_candidates. intros H. apply mapM_ok in H. induction H as [|x y l r Hx _ IH]; constructor; [|exact IH].
  cbn in Hx. apply Ok_inj in Hx. subst y. eexists. split; reflexivity.
Qed.
Lemma kakan_cand_fresh p h m l : kakan_candidates p h m = Ok l -> Forall (fresh_during (Z.of_nat p)) l.
Proof.
  unfold kakan_candidates. intros H. apply bind_ok in H as (ds & H & E). apply Ok_inj in E. subst l. apply mapM_ok in H.
  induction H as [|x y l r Hx _ IH]; [constructor|]. cbn [List.concat]. apply Forall_app. split; [|exact IH].
  destruct (is_pon (nk_code x)); [|apply Ok_inj in Hx; subst; constructor]. apply bind_ok in Hx as (k & _ & Hx).
  destruct (_ =? 1); [|apply Ok_inj in Hx; subst; constructor]. apply bind_ok in Hx as (nk & En & Hx). apply Ok_inj in Hx. subst y.
  constructor; [|constructor]. exists nk. split; [reflexivity|].
  unfold from_kakan_info in En. apply bind_ok in En as (u & _ & En). apply Ok_inj in En. subst nk. reflexivity.
Qed.
Lemma mask_fresh player hands t r ds q : List.length hands = 4%nat -> 0 <= player < 4 -> 0 <= t < 34 -> 0 <= q < 4 ->
  decision_mask player hands t r = Ok ds -> Forall (fresh_post player q) (offered ds q).
Proof.
  intros Hl Hpl Ht Hq E. apply Forall_forall. intros d Hin.
  destruct (right_players player hands t r ds Hl Hpl Ht E) as [_ H]. destruct (H q d Hq Hin) as (nk & k & -> & _ & _ & F & _).
  exists nk. split; [reflexivity|]. split; [|exact F].
  destruct (each_offered _ q12_all player hands t r ds q _ Hl Hpl Ht Hq E Hin) as (_ & nk' & E' & Q).
  injection E' as <-. unfold q12 in Q. apply andb_prop in Q as [Q _]. apply andb_prop in Q as [Q _]. now apply Z.eqb_eq.
Qed.
Lemma reach_cand_shape L p s re : reach_candidates L p s = Ok re -> re = [] \/ re = [ReachDecision (Z.of_nat p) false].
Proof.
  unfold reach_candidates. destruct (_ && _); intros H; [|left; now apply Ok_inj in H].
  apply bind_ok in H as (sh & _ & H). apply Ok_inj in H. subst re. destruct (sh <=? 0); auto.
Qed.
Lemma rons_shape L n sa pl htf nl su t ck ha rn htf' rons k : (k < 4)%nat ->
  evaluate_ron (l_agari L) (args_of n sa) pl htf nl su t ck ha rn = Ok (htf', rons) ->
  nth k rons None = None \/ nth k rons None = Some (AgariDecision (Z.of_nat k) false).
Proof.
  intros Hk H. apply (evaluate_ron_args _ _ _ _ _ _ _ _ _ _ _ _ _ k Hk) in H.
  destruct (_ || _) in H; [auto|]. destruct H as (q & b & _ & -> & _). destruct b; auto.
Qed.

(** ** What a step does to the recorded decisions *)
Lemma astep_labels L n s a s' : wf s -> seated a -> astep L n s a = Ok s' ->
  match a with
  | PlDraw w t => exists so ag re nl b, s_half s' = DuringTurn w so [ag; re; nl] (ntokens s) :: s_half s /\ ag = win_if b w /\
      (re = [] \/ re = [ReachDecision w false]) /\ Forall (fresh_during w) nl
  | PlDiscard w t => exists so ds, s_half s' = PostTurn w so ds (ntokens s) :: DiscardTurn w so t (ntokens s) :: s_half s /\
      List.length ds = 4%nat /\
      forall q, 0 <= q < 4 -> exists b nl, nth (Z.to_nat q) ds [] = [win_if b q; []; nl] /\ Forall (fresh_post w q) nl
  | PlCall w c => exists nk hs, mk_naki c = Ok nk /\
      hs = (if is_ankan c || is_kakan c
         then upd_during (fun ds => upd ds DECISION_NAKI_IDX (exec_match (nk_conv nk))) (s_half s)
         else upd_post (fun ds => map (fun l => upd l DECISION_NAKI_IDX (exec_match (nk_conv nk))) ds) (s_half s)) /\
      (if is_kakan c then exists so ds, s_half s' = PostTurn w so ds (ntokens s + 1) :: hs /\ List.length ds = 4%nat /\
          forall q, 0 <= q < 4 -> exists b, nth (Z.to_nat q) ds [] = [win_if b q; []; []]
       else s_half s' = hs)
  | PlReach1 w => s_half s' = upd_during (fun ds => upd ds DECISION_REACH_IDX exec_first) (s_half s)
  | PlReach2 w => s_half s' = s_half s
  | PlDora t => s_half s' = s_half s
  end.
Proof.
  intros W S H. destruct (ap_frame a s) as (F1 & F2 & F3 & F4).
  destruct a as [w t|w t|w c|w|w|t]; cbn [astep seated] in *.
  - assert (Ew : w = Z.of_nat (Z.to_nat w)) by lia.
    apply draw_inv in H as (_ & ag & re & ank & kak & H1 & H2 & H3 & H4 & ->); [|lia|exact W].
    rewrite <- Ew in *. apply evaluate_tsumo_ok in H1 as (q & b & _ & -> & _).
    apply reach_cand_shape in H2. apply ankan_cand_fresh in H3. apply kakan_cand_fresh in H4. rewrite <- Ew in *.
    eexists _, _, re, (ank ++ kak), b. split; [|split; [reflexivity|split; [exact H2|apply Forall_app; split; assumption]]].
    revert F1. generalize (apply (PlDraw w t) s). intros sa F1. rewrite <- F1. now destruct sa.
  - assert (Ew : w = Z.of_nat (Z.to_nat w)) by lia.
    assert (Lh : List.length (s_ht (apply (PlDiscard w t) s)) = 4%nat) by (rewrite ap_ht, length_upd; apply W).
    apply discard_inv in H as (_ & so & acq & tok & rons & nakis & Eso & Ea & Et & Er & Em & _ & ->); [|lia|exact W].
    rewrite <- Ew in *.
    exists so. eexists. split.
    { revert F1. generalize (apply (PlDiscard w t) s). intros sa F1. rewrite <- F1. destruct sa; reflexivity. }
    split; [reflexivity|]. intros q Hq. rewrite dec_lists_nth by lia.
    pose proof (rons_shape _ _ _ _ _ _ _ _ _ _ _ _ _ (Z.to_nat q) ltac:(lia) Er) as Rs. rewrite Z2Nat.id in Rs by lia.
    eexists (match nth (Z.to_nat q) rons None with Some _ => true | None => false end), _.
    split; [destruct Rs as [-> | ->]; reflexivity|].
    destruct (Nat.eqb (Z.to_nat q) (Z.to_nat w)); [constructor|].
    change (nth (Z.to_nat q) nakis []) with (offered nakis q).
    eapply mask_fresh in Em; [exact Em|exact Lh|lia| |lia].
    rewrite (proj1 (tix_hd t)). pose proof (tid_range t).
    assert (0 <= tid t / 4 < 34) by (split; [apply Z.div_pos; lia|apply Z.div_lt_upper_bound; lia]).
    rewrite Z2Nat.id by lia. assumption.
  - apply bind_ok in H as (u & _ & H). apply bind_ok in H as (nk & En & H).
    apply (call_inv L n s w c nk s' W En) in H as ((Hw & _) & tok & Et & H). cbv zeta in H. destruct H as (hs & E & H).
    apply (f_equal s_half) in E. rewrite half_of in E.
    exists nk. eexists. split; [exact En|]. split; [reflexivity|].
    destruct (is_kakan c).
    + destruct H as (rons & Er & _ & ->). eexists. exists (dec_lists rons (fun _ => [])). split; [exact E|]. split; [reflexivity|].
      intros q Hq. rewrite dec_lists_nth by lia.
      pose proof (rons_shape _ _ _ _ _ _ _ _ _ _ _ _ _ (Z.to_nat q) ltac:(lia) Er) as Rs. rewrite Z2Nat.id in Rs by lia.
      exists (match nth (Z.to_nat q) rons None with Some _ => true | None => false end).
      destruct Rs as [-> | ->]; reflexivity.
    + now rewrite E.
  - apply bind_ok in H as (u & _ & H). apply reach1_inv in H as (_ & ->); [|exact W]. reflexivity.
  - apply bind_ok in H as (u & _ & H). apply reach2_inv in H as (_ & tok & Et & ->); [|exact W].
    revert F1. generalize (apply (PlReach2 w) s). intros sa F1. exact F1.
  - apply dora_inv in H as (_ & tok & Et & ->).
    revert F1. generalize (apply (PlDora t) s). intros sa F1. exact F1.
Qed.

(** ** Invariant over a round *)
Definition fresh (h : halfturn sobj) : Prop :=
  match h with
  | DuringTurn p _ ds _ => exists ag re nl, ds = [ag; re; nl] /\ Forall (fresh_during p) nl
  | DiscardTurn _ _ _ _ => False
  | PostTurn p _ ds _ => forall q, 0 <= q < 4 -> exists ag nl, nth (Z.to_nat q) ds [] = [ag; []; nl] /\ Forall (fresh_post p q) nl
  end.

Definition lab_inv (h : list play) (s : rstate) : Prop :=
  Forall labels_ok (s_half s) /\
  (s_cur s = true -> match s_half s with x :: _ => fresh x /\ (consistent h -> half_player x = turn (-1) h) | [] => False end).

Lemma fresh_post_during p q d : fresh_post p q d -> fresh_during q d.
Proof. intros (nk & E & R & _). exists nk. auto. Qed.
Lemma fresh_unmarked p l : Forall (fresh_during p) l -> unmarked l.
Proof. apply Forall_impl. intros d (nk & -> & _). reflexivity. Qed.
Lemma fresh_player p l : Forall (fresh_during p) l -> of_player p l.
Proof. apply Forall_impl. intros d (nk & -> & _). reflexivity. Qed.
Lemma win_unmarked b p : unmarked (win_if b p) /\ of_player p (win_if b p).
Proof. destruct b; cbn; split; repeat constructor. Qed.
Lemma fresh_posts p q l : Forall (fresh_post p q) l -> Forall (fresh_during q) l.
Proof. apply Forall_impl. intros d. apply fresh_post_during. Qed.

Lemma four {A} (l : list A) : List.length l = 4%nat -> exists a b c d, l = [a; b; c; d].
Proof. destruct l as [|a [|b [|c [|d [|]]]]]; try discriminate. eauto. Qed.

Lemma all4 (P : Z -> Prop) : (forall q, 0 <= q < 4 -> P q) <-> P 0 /\ P 1 /\ P 2 /\ P 3.
Proof.
  split; [intros H; repeat split; apply H; lia|].
  intros (A & B & C & D) q Hq. assert (E : q = 0 \/ q = 1 \/ q = 2 \/ q = 3) by lia. destruct E as [-> | [-> | [-> | ->]]]; assumption.
Qed.

(** Only candidates of one player can match a code. *)
Lemma post_matches p q nl cv : Forall (fresh_post p q) nl -> (q + from_who cv) mod 4 <> p -> Forall (fun d => matches cv d = false) nl.
Proof.
  intros F N. eapply Forall_impl; [|exact F]. intros d (nk & -> & R & Q). cbn [matches]. apply Z.eqb_neq. rewrite R. intros E.
  apply N. now rewrite <- E.
Qed.

Lemma post_marked_ok p so ds i cv : labels_ok (PostTurn p so ds i) -> fresh (PostTurn p so ds i) ->
  labels_ok (PostTurn p so (map (fun l => upd l DECISION_NAKI_IDX (exec_match cv)) ds) i).
Proof.
  cbn [labels_ok fresh]. intros (Hl & _ & H) F. rewrite map_length. split; [exact Hl|].
  destruct (four ds Hl) as (d0 & d1 & d2 & d3 & ->). clear Hl.
  apply all4 in H as (H0 & H1 & H2 & H3). apply all4 in F as (F0 & F1 & F2 & F3).
  unfold Z.to_nat, Pos.to_nat, Pos.iter_op, Init.Nat.add, nth in *.
  destruct H0 as (w0 & n0 & -> & U0 & P0), H1 as (w1 & n1 & -> & U1 & P1), H2 as (w2 & n2 & -> & U2 & P2), H3 as (w3 & n3 & -> & U3 & P3).
  destruct F0 as (x0 & y0 & E0 & F0), F1 as (x1 & y1 & E1 & F1), F2 as (x2 & y2 & E2 & F2), F3 as (x3 & y3 & E3 & F3).
  injection E0 as -> ->. injection E1 as -> ->. injection E2 as -> ->. injection E3 as -> ->.
  unfold DECISION_NAKI_IDX. cbn [map upd].
  split.
  - cbn [List.concat app]. rewrite !nmarked_app. cbn [List.concat app]. rewrite ?app_nil_r, !(unmarked_n x0), !(unmarked_n x1), !(unmarked_n x2), !(unmarked_n x3) by assumption.
    destruct (exec_match_n cv y0) as [A0 B0]; [eapply fresh_unmarked, fresh_posts; eassumption|].
    destruct (exec_match_n cv y1) as [A1 B1]; [eapply fresh_unmarked, fresh_posts; eassumption|].
    destruct (exec_match_n cv y2) as [A2 B2]; [eapply fresh_unmarked, fresh_posts; eassumption|].
    destruct (exec_match_n cv y3) as [A3 B3]; [eapply fresh_unmarked, fresh_posts; eassumption|].
    pose proof (fun N => B0 (post_matches p 0 y0 cv F0 N)) as C0. pose proof (fun N => B1 (post_matches p 1 y1 cv F1 N)) as C1.
    pose proof (fun N => B2 (post_matches p 2 y2 cv F2 N)) as C2. pose proof (fun N => B3 (post_matches p 3 y3 cv F3 N)) as C3.
    clear - A0 A1 A2 A3 C0 C1 C2 C3.
    assert (D : forall a b, 0 <= a < 4 -> 0 <= b < 4 -> a <> b -> (a + from_who cv) mod 4 = p -> (b + from_who cv) mod 4 = p -> False).
    { intros a b Ha Hb N Ea Eb. assert (E : (a - b) mod 4 = 0).
      { replace (a - b) with ((a + from_who cv) - (b + from_who cv)) by lia. rewrite Zminus_mod, Ea, Eb, Z.sub_diag. reflexivity. }
      apply Z.mod_divide in E as (k & E); [|lia]. lia. }
    assert (Q : forall a b (m k : nat), 0 <= a < 4 -> 0 <= b < 4 -> a <> b -> ((a + from_who cv) mod 4 <> p -> m = 0%nat) -> ((b + from_who cv) mod 4 <> p -> k = 0%nat) -> m = 0%nat \/ k = 0%nat).
    { intros a b m k Ha Hb N Ma Mb. destruct (Z.eq_dec ((a + from_who cv) mod 4) p) as [e|e]; [|left; auto].
      destruct (Z.eq_dec ((b + from_who cv) mod 4) p) as [e'|e']; [|right; auto]. destruct (D a b Ha Hb N e e'). }
    pose proof (Q 0 1 _ _ ltac:(lia) ltac:(lia) ltac:(lia) C0 C1). pose proof (Q 0 2 _ _ ltac:(lia) ltac:(lia) ltac:(lia) C0 C2).
    pose proof (Q 0 3 _ _ ltac:(lia) ltac:(lia) ltac:(lia) C0 C3). pose proof (Q 1 2 _ _ ltac:(lia) ltac:(lia) ltac:(lia) C1 C2).
    pose proof (Q 1 3 _ _ ltac:(lia) ltac:(lia) ltac:(lia) C1 C3). pose proof (Q 2 3 _ _ ltac:(lia) ltac:(lia) ltac:(lia) C2 C3).
    clear Q D C0 C1 C2 C3. change (nmarked []) with 0%nat. lia.
  - apply all4. unfold Z.to_nat, Pos.to_nat, Pos.iter_op, Init.Nat.add, nth.
    apply of_player_app in P0 as [P0 Q0], P1 as [P1 Q1], P2 as [P2 Q2], P3 as [P3 Q3].
    repeat split; eexists _, _; (split; [reflexivity|split; [assumption|apply of_player_app; split; [assumption|apply exec_match_player; assumption]]]).
Qed.

Lemma during_call_ok p so ds i cv : labels_ok (DuringTurn p so ds i) -> fresh (DuringTurn p so ds i) ->
  labels_ok (DuringTurn p so (upd ds DECISION_NAKI_IDX (exec_match cv)) i).
Proof.
  cbn [labels_ok fresh]. intros (w & r & c & -> & U & N1 & N2 & P) (x & y & z & E & F). injection E as <- <- <-.
  exists w, r, (exec_match cv c). split; [reflexivity|]. split; [exact U|]. split; [exact N1|].
  split; [apply exec_match_n; eapply fresh_unmarked; exact F|].
  apply of_player_app in P as [P1 P2]. apply of_player_app in P2 as [P2 P3].
  apply of_player_app. split; [exact P1|]. apply of_player_app. split; [exact P2|]. now apply exec_match_player.
Qed.

Lemma during_reach_ok p so ds i : labels_ok (DuringTurn p so ds i) -> fresh (DuringTurn p so ds i) ->
  labels_ok (DuringTurn p so (upd ds DECISION_REACH_IDX exec_first) i) /\ fresh (DuringTurn p so (upd ds DECISION_REACH_IDX exec_first) i).
Proof.
  cbn [labels_ok fresh]. intros (w & r & c & -> & U & N1 & N2 & P) (x & y & z & E & F). injection E as <- <- <-.
  apply of_player_app in P as [P1 P2]. apply of_player_app in P2 as [P2 P3]. split.
  - exists w, (exec_first r), c. split; [reflexivity|]. split; [exact U|]. split; [destruct r; [exact N1|exact N1]|].
    split; [exact N2|]. apply of_player_app. split; [exact P1|]. apply of_player_app. split; [|exact P3].
    destruct r as [|d r]; [constructor|]. cbn [exec_first]. inversion P2; subst. constructor; [apply set_executed_player|assumption].
  - exists w, (exec_first r), c. split; [reflexivity|exact F].
Qed.

Lemma lab_inv_holds L go e0 evs n s pls : runs L go e0 evs n s pls -> lab_inv pls s.
Proof.
  intros R. eapply (runs_inv_full _ _ _ _ _ _ _ lab_inv) in R; [exact (proj1 R)| |]; clear.
  - intros s0 In0 _. destruct (in_rest _ _ In0) as (_ & _ & _ & _ & _ & _ & H1 & _ & _ & _ & H2 & _). unfold lab_inv. rewrite H1, H2.
    split; [constructor|discriminate].
  - intros h a s s' W S [I1 I2] G E Es. pose proof (astep_cur _ _ _ _ _ W S E) as Cu. apply astep_labels in E; [|assumption..].
    unfold lab_inv.
    assert (Tn : forall x, consistent (h ++ [x]) -> consistent h) by (intros x; apply consistent_app).
    destruct a as [w t|w t|w c|w|w|t].
    + destruct E as (so & ag & re & nl & b & -> & -> & Hre & F). destruct (win_unmarked b w) as [U P].
      split.
      * constructor; [|exact I1]. exists (win_if b w), re, nl. split; [reflexivity|]. split; [exact U|].
        split; [destruct Hre as [-> | ->]; cbn; lia|]. split; [rewrite unmarked_n; [lia|eapply fresh_unmarked; exact F]|].
        apply of_player_app. split; [exact P|]. apply of_player_app. split; [|eapply fresh_player; exact F].
        destruct Hre as [-> | ->]; repeat constructor.
      * intros _. split; [exists (win_if b w), re, nl; auto|]. intros _. rewrite turn_app. reflexivity.
    + destruct E as (so & ds & -> & Hl & H). split.
      * constructor; [|constructor; [exact I|exact I1]]. cbn [labels_ok]. split; [exact Hl|]. 
        assert (Hu : forall q, 0 <= q < 4 -> unmarked (List.concat (nth (Z.to_nat q) ds []))).
        { intros q Hq. destruct (H q Hq) as (b & nl & -> & F). cbn [List.concat app]. rewrite app_nil_r. apply unmarked_app.
          split; [apply win_unmarked|eapply fresh_unmarked, fresh_posts; exact F]. }
        split.
        -- rewrite unmarked_n; [lia|]. destruct (four ds Hl) as (d0 & d1 & d2 & d3 & ->). apply all4 in Hu as (A & B & C & D).
           cbn [List.concat]. rewrite app_nil_r, !concat_app. unfold unmarked in *. repeat (apply Forall_app; split); assumption.
        -- intros q Hq. destruct (H q Hq) as (b & nl & -> & F). exists (win_if b q), nl. split; [reflexivity|].
           split; [apply win_unmarked|]. apply of_player_app. split; [apply win_unmarked|eapply fresh_player, fresh_posts; exact F].
      * intros _. split.
        -- intros q Hq. destruct (H q Hq) as (b & nl & -> & F). exists (win_if b q), nl. auto.
        -- intros Cn. unfold consistent in Cn. apply in_turn_app in Cn as [_ Cn]. cbn in Cn. rewrite turn_app. cbn. apply Cn.
    + destruct Cu as [Cu Cu']. rewrite Cu'. split; [|discriminate]. specialize (I2 Cu).
      destruct E as (nk & hs & En & Eh & E).
      assert (Lh : Forall labels_ok hs).
      { rewrite Eh. destruct (s_half s) as [|x r]; [contradiction|]. inversion I1 as [|x' r' Lx Lr]; subst x' r'. destruct I2 as [Fx _].
        destruct (is_ankan c || is_kakan c); destruct x; cbn [upd_during upd_post]; try (constructor; assumption).
        - constructor; [|assumption]. apply during_call_ok; assumption.
        - constructor; [|assumption]. apply post_marked_ok; assumption. }
      destruct (is_kakan c); [|rewrite E; exact Lh].
      destruct E as (so & ds & -> & Hl & H). constructor; [|exact Lh]. cbn [labels_ok]. split; [exact Hl|]. split.
      * rewrite unmarked_n; [lia|]. destruct (four ds Hl) as (d0 & d1 & d2 & d3 & ->). apply all4 in H as (A & B & C & D).
        unfold Z.to_nat, Pos.to_nat, Pos.iter_op, Init.Nat.add, nth in A, B, C, D.
        destruct A as (b0 & ->), B as (b1 & ->), C as (b2 & ->), D as (b3 & ->).
        cbn [List.concat app]. unfold unmarked. apply Forall_app; split; [apply win_unmarked|].
        apply Forall_app; split; [apply win_unmarked|]. apply Forall_app; split; [apply win_unmarked|].
        apply Forall_app; split; [apply win_unmarked|constructor].
      * intros q Hq. destruct (H q Hq) as (b & ->). exists (win_if b q), []. split; [reflexivity|]. rewrite app_nil_r. split; apply win_unmarked.
    + destruct Cu as [Cu Cu']. specialize (I2 Cu). rewrite E. destruct (s_half s) as [|x r]; [contradiction|].
      inversion I1 as [|x' r' Lx Lr]; subst x' r'. destruct I2 as [Fx Px].
      assert (T : turn (-1) (h ++ [PlReach1 w]) = turn (-1) h) by (rewrite turn_app; reflexivity). rewrite T.
      destruct x; cbn [upd_during]; [|split; [constructor; assumption|intros _; split; [assumption|intros Cn; apply Px, (Tn _ Cn)]]..].
      destruct (during_reach_ok _ _ _ _ Lx Fx) as [A B]. split; [constructor; assumption|]. intros _. split; [exact B|]. intros Cn. apply Px, (Tn _ Cn).
    + rewrite E. split; [exact I1|]. intros _. destruct Cu as [Cu _]. specialize (I2 Cu). destruct (s_half s); [contradiction|].
      destruct I2 as [A B]. split; [exact A|]. intros Cn. rewrite turn_app. apply B, (Tn _ Cn).
    + rewrite E, Cu. split; [exact I1|]. intros Hc. specialize (I2 Hc). destruct (s_half s); [contradiction|].
      destruct I2 as [A B]. split; [exact A|]. intros Cn. rewrite turn_app. apply B, (Tn _ Cn).
Qed.

(** ** The steps *)
Lemma nth_map_nil {A B} (f : list A -> list B) l k : (k < List.length l)%nat -> nth k (map f l) [] = f (nth k l []).
Proof. revert k. induction l as [|x l IH]; intros [|k] H; cbn in *; [lia|lia|reflexivity|apply IH; lia]. Qed.

Lemma other_call_marks L go e0 evs n s' pls w c : runs L go e0 evs n s' (pls ++ [PlCall w c]) -> consistent (pls ++ [PlCall w c]) ->
  is_ankan c || is_kakan c = false ->
  exists evs1 s p so ds ds' i r, runs L go e0 evs1 n s pls /\
    s_half s = PostTurn p so ds i :: r /\ s_half s' = PostTurn p so ds' i :: r /\
    List.length ds = 4%nat /\ List.length ds' = 4%nat /\ p = turn (-1) pls /\
    (forall q, 0 <= q < 4 -> q <> w -> nth (Z.to_nat q) ds' [] = nth (Z.to_nat q) ds []) /\
    exists wins calls calls', nth (Z.to_nat w) ds [] = [wins; []; calls] /\ nth (Z.to_nat w) ds' [] = [wins; []; calls'] /\
      call_marks w c calls calls'.
Proof.
  intros R Cn Hk. destruct (runs_snoc _ _ _ _ _ _ _ _ R) as (evs1 & ev & s & _ & R1 & W & S & E & G & Es).
  pose proof (lab_inv_holds _ _ _ _ _ _ _ R1) as [I1 I2].
  destruct G as (Hw & _ & Hex & Gc & _). rewrite Hk in Gc.
  apply astep_labels in E; [|assumption..]. destruct E as (nk & hs & En & Eh & E). rewrite Hk in Eh.
  pose proof Hk as Hka. apply orb_false_iff in Hk as [_ Hk']. rewrite Hk' in E.
  unfold cur_post in Gc. apply andb_prop in Gc as [Hc Gc]. specialize (I2 Hc).
  destruct (s_half s) as [|x r] eqn:Es0; [discriminate Gc|]. destruct x as [| |p so ds i]; try discriminate Gc.
  destruct I2 as [Fr Hp]. cbn [half_player] in Hp. specialize (Hp (consistent_app _ _ Cn)).
  pose proof (Forall_inv I1) as Lx. cbn [labels_ok] in Lx. destruct Lx as (Hl & _ & Lq). cbn [upd_post] in Eh. subst hs.
  exists evs1, s, p, so, ds. eexists. exists i, r. split; [exact R1|]. split; [exact Es0|]. split; [exact E|].
  split; [exact Hl|]. split; [rewrite map_length; exact Hl|]. split; [exact Hp|].
  unfold consistent in Cn. apply in_turn_app in Cn as [_ Cn]. cbn [in_turn] in Cn. destruct Cn as [Cn _]. rewrite Hka in Cn.
  destruct Cn as [_ Cn]. rewrite <- Hp, <- (from_who_mod c) in Cn.
  destruct Hex as ((ex & a) & Hex). destruct (normalise c nk ex a En Hex) as (_ & _ & Fw & _).
  split.
  - intros q Hq Nq. rewrite nth_map_nil by lia.
    destruct (Fr q Hq) as (ag & nl & -> & F). unfold DECISION_NAKI_IDX. cbn [upd]. do 3 f_equal.
    assert (N : Forall (fun d => matches (nk_conv nk) d = false) nl).
    { eapply post_matches; [exact F|]. rewrite Fw, <- Cn. intros Ec. apply Nq.
      assert (Em : (q - w) mod 4 = 0).
      { replace (q - w) with ((q + from_who c) - (w + from_who c)) by lia. rewrite Zminus_mod, Ec, Z.sub_diag. reflexivity. }
      apply Z.mod_divide in Em as (k & Em); [|lia]. lia. }
    destruct (exec_match_cases (nk_conv nk) nl) as [(l1 & d & l2 & -> & _ & M)|[-> _]]; [|reflexivity].
    apply Forall_app in N as [_ N]. inversion N; congruence.
  - rewrite nth_map_nil by lia.
    destruct (Fr w Hw) as (ag & nl & -> & F). unfold DECISION_NAKI_IDX. cbn [upd].
    eexists _, _, _. split; [reflexivity|]. split; [reflexivity|]. apply fresh_marks; [exact En|eexists; exact Hex|eapply fresh_posts; exact F].
Qed.

Lemma own_kan_marks L go e0 evs n s' pls w c : runs L go e0 evs n s' (pls ++ [PlCall w c]) -> consistent (pls ++ [PlCall w c]) ->
  is_ankan c || is_kakan c = true ->
  exists evs1 s so wins riichi calls calls' i r new, runs L go e0 evs1 n s pls /\
    s_half s = DuringTurn w so [wins; riichi; calls] i :: r /\ s_half s' = new ++ DuringTurn w so [wins; riichi; calls'] i :: r /\
    call_marks w c calls calls' /\ Forall none_marked new /\ (is_kakan c = false -> new = []).
Proof.
  intros R Cn Hk. destruct (runs_snoc _ _ _ _ _ _ _ _ R) as (evs1 & ev & s & _ & R1 & W & S & E & G & Es).
  pose proof (lab_inv_holds _ _ _ _ _ _ _ R1) as [I1 I2].
  destruct G as (Hw & _ & Hex & Gc & _). rewrite Hk in Gc.
  apply astep_labels in E; [|assumption..]. destruct E as (nk & hs & En & Eh & E). rewrite Hk in Eh.
  unfold cur_during in Gc. apply andb_prop in Gc as [Hc Gc]. specialize (I2 Hc).
  destruct (s_half s) as [|x r] eqn:Es0; [discriminate Gc|]. destruct x as [p so ds i| |]; try discriminate Gc.
  destruct I2 as [(ag & re & nl & -> & Fr) Hp]. cbn [half_player] in Hp. specialize (Hp (consistent_app _ _ Cn)).
  unfold consistent in Cn. apply in_turn_app in Cn as [_ Cn]. cbn [in_turn] in Cn. rewrite Hk in Cn. destruct Cn as [Cn _].
  rewrite <- Hp in Cn. subst p. cbn [upd_during] in Eh. unfold DECISION_NAKI_IDX in Eh. cbn [upd] in Eh. subst hs.
  exists evs1, s, so, ag, re, nl, (exec_match (nk_conv nk) nl), i, r.
  assert (M : call_marks w c nl (exec_match (nk_conv nk) nl)) by (apply fresh_marks; assumption).
  destruct (is_kakan c).
  - destruct E as (so' & ds & E & Hl & H). exists [PostTurn w so' ds (ntokens s + 1)]. split; [exact R1|]. split; [exact Es0|]. split; [exact E|].
    split; [exact M|]. split; [|discriminate]. constructor; [|constructor]. cbn [none_marked].
    destruct (four ds Hl) as (d0 & d1 & d2 & d3 & ->). apply all4 in H as (A & B & C & D).
    unfold Z.to_nat, Pos.to_nat, Pos.iter_op, Init.Nat.add, nth in A, B, C, D.
    destruct A as (b0 & ->), B as (b1 & ->), C as (b2 & ->), D as (b3 & ->).
    cbn [List.concat app]. unfold unmarked. apply Forall_app; split; [apply win_unmarked|].
    apply Forall_app; split; [apply win_unmarked|]. apply Forall_app; split; [apply win_unmarked|].
    apply Forall_app; split; [apply win_unmarked|constructor].
  - exists []. split; [exact R1|]. split; [exact Es0|]. split; [exact E|]. split; [exact M|]. split; [constructor|reflexivity].
Qed.

Lemma riichi_marks L go e0 evs n s' pls w : runs L go e0 evs n s' (pls ++ [PlReach1 w]) -> consistent (pls ++ [PlReach1 w]) ->
  exists evs1 s so wins riichi riichi' calls i r, runs L go e0 evs1 n s pls /\
    s_half s = DuringTurn w so [wins; riichi; calls] i :: r /\ s_half s' = DuringTurn w so [wins; riichi'; calls] i :: r /\
    ((riichi = [] /\ riichi' = []) \/ exists d, riichi = [d] /\ riichi' = [set_executed d] /\ d_player d = w).
Proof.
  intros R Cn. destruct (runs_snoc _ _ _ _ _ _ _ _ R) as (evs1 & ev & s & _ & R1 & W & S & E & (Gc & _) & Es).
  pose proof (lab_inv_holds _ _ _ _ _ _ _ R1) as [I1 I2].
  apply astep_labels in E; [|assumption..].
  unfold cur_during in Gc. apply andb_prop in Gc as [Hc Gc]. specialize (I2 Hc).
  destruct (s_half s) as [|x r] eqn:Es0; [discriminate Gc|]. destruct x as [p so ds i| |]; try discriminate Gc.
  destruct I2 as [_ Hp]. cbn [half_player] in Hp. specialize (Hp (consistent_app _ _ Cn)).
  unfold consistent in Cn. apply in_turn_app in Cn as [_ Cn]. cbn [in_turn] in Cn. destruct Cn as [Cn _].
  rewrite <- Hp in Cn. subst p. pose proof (Forall_inv I1) as Lx. cbn [labels_ok] in Lx. destruct Lx as (wn & re & ca & -> & _ & Lr & _ & P).
  cbn [upd_during] in E. unfold DECISION_REACH_IDX in E. cbn [upd] in E.
  exists evs1, s, so, wn, re, (exec_first re), ca, i, r. split; [exact R1|]. split; [exact Es0|]. split; [exact E|].
  apply of_player_app in P as [_ P]. apply of_player_app in P as [P _].
  destruct re as [|d [|]]; [left; auto| |cbn in Lr; lia]. right. exists d. inversion P. auto.
Qed.

(** The other plays mark nothing. *)
Lemma rest_marks L go e0 evs n s' pls a : runs L go e0 evs n s' (pls ++ [a]) ->
  match a with PlCall _ _ | PlReach1 _ => True | _ =>
  exists evs1 s new, runs L go e0 evs1 n s pls /\ s_half s' = new ++ s_half s /\ Forall none_marked new end.
Proof.
  intros R. destruct (runs_snoc _ _ _ _ _ _ _ _ R) as (evs1 & ev & s & _ & R1 & W & S & E & _ & Es).
  apply astep_labels in E; [|assumption..]. destruct a as [w t|w t|w c|w|w|t]; try exact I.
  - destruct E as (so & ag & re & nl & b & E & -> & Hre & F). exists evs1, s, [DuringTurn w so [win_if b w; re; nl] (ntokens s)].
    split; [exact R1|]. split; [exact E|]. constructor; [|constructor]. cbn [none_marked List.concat]. rewrite app_nil_r.
    apply unmarked_app. split; [apply win_unmarked|]. apply unmarked_app. split; [|eapply fresh_unmarked; exact F].
    destruct Hre as [-> | ->]; repeat constructor.
  - destruct E as (so & ds & E & Hl & H). exists evs1, s, [PostTurn w so ds (ntokens s); DiscardTurn w so t (ntokens s)].
    split; [exact R1|]. split; [exact E|]. constructor; [|constructor; [exact I|constructor]]. cbn [none_marked].
    assert (Hu : forall q, 0 <= q < 4 -> unmarked (List.concat (nth (Z.to_nat q) ds []))).
    { intros q Hq. destruct (H q Hq) as (b & nl & -> & F). cbn [List.concat app]. rewrite app_nil_r. apply unmarked_app.
      split; [apply win_unmarked|eapply fresh_unmarked, fresh_posts; exact F]. }
    destruct (four ds Hl) as (d0 & d1 & d2 & d3 & ->). apply all4 in Hu as (A & B & C & D).
    cbn [List.concat]. rewrite app_nil_r, !concat_app. unfold unmarked in *. repeat (apply Forall_app; split); assumption.
  - exists evs1, s, []. split; [exact R1|]. split; [exact E|constructor].
  - exists evs1, s, []. split; [exact R1|]. split; [exact E|constructor].
Qed.
