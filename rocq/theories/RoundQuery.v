(** What the scoring library is asked during a round. *)
From Coq Require Import ZArith List Bool String Ascii Lia PeanoNat Permutation.
From Verif Require Import Base Constants Naki Decision Tokens GameInfo Agari Process VecLemmas
  SpecMeld SpecTokens SpecRound SpecTurn RoundLemmas RoundInv RoundTiles RoundInit RoundBook RoundFlags RoundSplit RoundHalf RoundFacts.
Import ListNotations.
Open Scope Z_scope.

(** ** Turn counters *)
Lemma calls_app a b : calls (a ++ b) = calls a + calls b.
Proof. apply filter_len_app. Qed.
Lemma draws_nonneg h : 0 <= draws h. Proof. unfold draws. lia. Qed.
Lemma calls_nonneg h : 0 <= calls h. Proof. unfold calls. lia. Qed.

Lemma astep_cur L n s a s' : wf s -> seated a -> astep L n s a = Ok s' ->
  match a with PlDora _ => s_cur s' = s_cur s | PlReach1 _ | PlReach2 _ => s_cur s = true /\ s_cur s' = true
   | PlCall _ _ => s_cur s = true /\ s_cur s' = false | _ => s_cur s' = true end.
Proof.
  intros W S H. destruct (ap_frame a s) as (_ & _ & F3 & _). destruct a as [w t|w t|w c|w|w|t]; cbn [astep seated] in *.
  - apply draw_inv in H as (_ & ag & re & ank & kak & _ & _ & _ & _ & ->); [reflexivity|lia|exact W].
  - apply discard_inv in H as (_ & so & acq & tok & rons & nakis & _ & _ & _ & _ & _ & _ & ->); [reflexivity|lia|exact W].
  - apply bind_ok in H as (u & Ec & H). apply passert_ok in Ec. apply bind_ok in H as (nk & En & H).
    apply (call_inv L n s w c nk s' W En) in H as (_ & tok & Et & H). cbv zeta in H. destruct H as (hs & -> & _). auto.
  - apply bind_ok in H as (u & Ec & H). apply passert_ok in Ec. apply reach1_inv in H as (_ & ->); [|exact W]. split; [exact Ec|]. rewrite <- Ec, <- F3. reflexivity.
  - apply bind_ok in H as (u & Ec & H). apply passert_ok in Ec. apply reach2_inv in H as (_ & tok & _ & ->); [|exact W]. split; [exact Ec|]. rewrite <- Ec, <- F3. reflexivity.
  - apply dora_inv in H as (_ & tok & _ & ->). rewrite <- F3. reflexivity.
Qed.

Definition cyc_inv (h : list play) (s : rstate) : Prop :=
  draws h <= s_cycles s /\ (draws h = 0 -> s_cur s = false /\ s_cycles s = 0 /\ calls h = 0 /\ s_acquired s = None) /\
  (calls h = 0 -> s_cycles s = draws h).

Lemma cyc_inv_holds L go e0 evs n s pls : runs L go e0 evs n s pls -> cyc_inv pls s.
Proof.
  intros R. eapply (runs_inv_full _ _ _ _ _ _ _ cyc_inv) in R; [exact (proj1 R)| |]; clear.
  - intros s0 In0 _. destruct (in_rest _ _ In0) as (_ & _ & _ & _ & _ & _ & H1 & H2 & H3 & _). unfold cyc_inv. rewrite H1, H2, H3.
    change (draws []) with 0. change (calls []) with 0. repeat split; lia.
  - intros h a s s' W S (I1 & I2 & I3) G E Es. unfold cyc_inv. rewrite draws_app, calls_app.
    apply strip_fields in Es as (_ & _ & _ & _ & _ & _ & _ & _ & _ & _ & _ & _ & _ & _ & _ & Ec & Ea). rewrite Ec, Ea, ap_cycles, ap_acquired.
    pose proof (astep_cur _ _ _ _ _ W S E) as Cu. pose proof (draws_nonneg h) as D0. pose proof (calls_nonneg h) as C0.
    destruct a as [w t|w t|w c|w|w|t].
    + change (draws [PlDraw w t]) with 1. change (calls [PlDraw w t]) with 0. repeat split; lia.
    + change (draws [PlDiscard w t]) with 0. change (calls [PlDiscard w t]) with 0.
      split; [lia|]. split; [|intros; rewrite I3; lia]. intros Z0. destruct (I2 ltac:(lia)) as (A & B & C & D).
      destruct G as (Ga & _). congruence.
    + change (draws [PlCall w c]) with 0. change (calls [PlCall w c]) with 1.
      pose proof (Z.mod_pos_bound (w - from_who c) 4 ltac:(lia)). destruct Cu as [Cu _].
      split; [destruct (_ || _); cbn [b2z]; lia|]. split; [|lia]. intros Z0. destruct (I2 ltac:(lia)) as (A & _). congruence.
    + change (draws [PlReach1 w]) with 0. change (calls [PlReach1 w]) with 0. destruct Cu as [Cu _].
      split; [lia|]. split; [|intros; rewrite I3; lia]. intros Z0. destruct (I2 ltac:(lia)) as (A & _). congruence.
    + change (draws [PlReach2 w]) with 0. change (calls [PlReach2 w]) with 0. destruct Cu as [Cu _].
      split; [lia|]. split; [|intros; rewrite I3; lia]. intros Z0. destruct (I2 ltac:(lia)) as (A & _). congruence.
    + change (draws [PlDora t]) with 0. change (calls [PlDora t]) with 0. rewrite Cu.
      split; [lia|]. split; [|intros; rewrite I3; lia]. intros Z0. destruct (I2 ltac:(lia)) as (A & B & C & D). repeat split; lia || assumption.
Qed.

(** ** Ippatsu flags *)
Lemma turn_app a b c : turn c (a ++ b) = turn (turn c a) b.
Proof. revert c. induction a as [|[]]; intros; cbn [app turn]; auto. Qed.
Lemma in_turn_app a b c : in_turn c (a ++ b) <-> in_turn c a /\ in_turn (turn c a) b.
Proof. revert c. induction a as [|[]]; intros c; cbn [app turn in_turn]; rewrite ?IHa; tauto. Qed.
Lemma consistent_app a b : consistent (a ++ b) -> consistent a.
Proof. intros H. apply in_turn_app in H. apply H. Qed.

Definition flags01 (l : list Z) : Prop := Forall (fun x => x = 0 \/ x = 1) l.
Lemma flags01_get l k : flags01 l -> vget l k = 0 \/ vget l k = 1.
Proof. intros F. unfold vget. destruct (nth_in_or_default k l 0) as [I| ->]; [|auto]. unfold flags01 in F. rewrite Forall_forall in F. now apply F. Qed.
Lemma flags01_set l k v : flags01 l -> v = 0 \/ v = 1 -> flags01 (vset l k v).
Proof.
  unfold vset. intros F Hv. revert k. induction F as [|x l Hx F IH]; intros k; cbn [upd]; [constructor|].
  destruct k; constructor; auto. apply IH.
Qed.
Lemma flags01_any l k : flags01 l -> any_set l = false -> vget l k = 0.
Proof.
  unfold any_set, truthy. intros F H. apply negb_false_iff, Z.eqb_eq in H. revert k. unfold vget.
  assert (N : forall l, flags01 l -> 0 <= vsum l) by (clear; induction 1 as [|x l Hx _ IH]; cbn; [lia|unfold vsum in *; lia]).
  induction F as [|x l Hx F IH]; intros [|k]; try reflexivity; cbn in *; specialize (N l F); fold (vsum l) in *.
  - lia.
  - apply IH. lia.
Qed.
Lemma cleared_get l k : flags01 l -> vget (if any_set l then repeat 0 4 else l) k = 0.
Proof. intros F. destruct (any_set l) eqn:E; [unfold vget; now rewrite nth_repeat|now apply flags01_any]. Qed.
Lemma flags01_cleared l : flags01 l -> flags01 (if any_set l then repeat 0 4 else l).
Proof. intros F. destruct (any_set l); [|exact F]. repeat constructor. Qed.

Definition ipp_inv (h : list play) (s : rstate) : Prop :=
  flags01 (s_ippatsu s) /\ (0 <= turn (-1) h < 4 \/ turn (-1) h = -1 /\ s_acquired s = None) /\ (consistent h -> forall p, 0 <= p < 4 -> p <> turn (-1) h -> flag (s_ippatsu s) p = 0).

Lemma ipp_inv_holds L go e0 evs n s pls : runs L go e0 evs n s pls -> ipp_inv pls s.
Proof.
  intros R. eapply (runs_inv _ _ _ _ _ _ _ ipp_inv) in R; [exact (proj1 R)| | |]; clear.
  - intros s0 In0. destruct (in_rest _ _ In0) as (_ & _ & _ & H & _ & _ & _ & _ & H3 & _). unfold ipp_inv. rewrite H, H3. split; [repeat constructor; auto|]. split; [auto|].
    intros _ p Hp _. unfold flag, vget. apply nth_repeat.
  - intros h a s W S (I1 & I3 & I2) G. pose proof (guard_seat a s S G) as Q. unfold ipp_inv. rewrite ap_ippatsu, ap_acquired.
    pose proof (wf_ippatsu _ W) as LI.
    assert (FD : forall w, flags01 (if truthy (vget (s_ippatsu s) w) then vset (s_ippatsu s) w 0 else s_ippatsu s)).
    { intros w. destruct (truthy _); [apply flags01_set; auto|exact I1]. }
    split; [|split].
    + destruct a as [w t|w t|w c|w|w|t]; try exact I1; try (apply flags01_set; auto); apply flags01_cleared; auto.
    + rewrite turn_app. destruct a as [w t|w t|w c|w|w|t]; cbn [turn seated] in *; auto. destruct I3 as [?|[? _]]; auto.
    + intros C p Hp. apply in_turn_app in C as [C1 C2]. rewrite turn_app. specialize (I2 C1).
      destruct a as [w t|w t|w c|w|w|t]; cbn [turn in_turn] in *; intros N; unfold flag in *; try (apply I2; assumption).
      * apply cleared_get; auto.
      * apply cleared_get; auto.
      * destruct C2 as [-> _]. rewrite vget_vset by (rewrite LI; destruct G as (_ & _ & G); pose proof (Z.mod_pos_bound (turn (-1) h) 4); lia).
        destruct (Nat.eqb_spec (Z.to_nat (turn (-1) h mod 4)) (Z.to_nat p)) as [E|E]; [|apply I2; assumption].
        exfalso. destruct G as (_ & Gd & G).
        destruct I3 as [T|[_ T]]; [|congruence].
        rewrite Z.mod_small in E by lia. lia.
      * destruct C2 as [-> _]. rewrite vget_vset by (rewrite LI; lia).
        destruct (Nat.eqb_spec (Z.to_nat (turn (-1) h)) (Z.to_nat p)) as [E|E]; [lia|apply I2; assumption].
  - intros h s s' E I. apply strip_fields in E as (_ & _ & _ & _ & _ & _ & _ & _ & _ & _ & _ & _ & E1 & _ & _ & _ & E2). unfold ipp_inv in *. rewrite <- E1, <- E2. exact I.
Qed.


(** ** The last play of a run *)
Lemma runs_snoc L go e0 evs n s' pls a : runs L go e0 evs n s' (pls ++ [a]) ->
  exists evs1 ev s, evs = evs1 ++ [ev] /\ runs L go e0 evs1 n s pls /\ wf s /\ seated a /\ astep L n s a = Ok s' /\
    guard a s /\ strip s' = strip (apply a s).
Proof.
  intros R. pose proof R as R'. destruct R as (s0 & E0 & E & Ep).
  rewrite map_app in Ep. cbn [map] in Ep. destruct (exists_last (l := evs)) as (evs1 & ev & ->).
  { intros ->. cbn in Ep. now apply app_cons_not_nil in Ep. }
  rewrite map_app in Ep. cbn [map] in Ep. apply app_inj_tail in Ep as [Ep Ea].
  apply foldM_app in E as (s & E1 & E2). exists evs1, ev, s. split; [reflexivity|].
  assert (R : runs L go e0 evs1 n s pls) by (exists s0; auto). split; [exact R|].
  cbn in E2. apply bind_ok in E2 as (s2 & E2 & H). injection H as ->.
  apply step_play in E2 as (a' & Ea' & Sa & E2). rewrite Ea in Ea'. injection Ea' as <-.
  assert (W : wf s) by (eapply (runs_inv _ _ _ _ _ _ _ (fun _ _ => True)) in R; [apply R|auto..]).
  split; [exact W|]. split; [exact Sa|]. split; [exact E2|]. now apply astep_apply in E2.
Qed.

Lemma all_set_menzen L go e0 evs n s pls : runs L go e0 evs n s pls ->
  (all_set (s_menzen s) = true <-> forall p, 0 <= p < 4 -> ~ opened p pls).
Proof.
  intros R. pose proof (flag_inv_holds _ _ _ _ _ _ _ R) as F.
  assert (W : wf s) by (eapply (runs_inv _ _ _ _ _ _ _ (fun _ _ => True)) in R; [apply R|auto..]).
  destruct W as (_ & _ & _ & _ & _ & _ & _ & _ & _ & _ & _ & _ & _ & _ & LM & _).
  assert (G : forall k, (k < 4)%nat -> (truthy (vget (s_menzen s) k) = true <-> ~ opened (Z.of_nat k) pls)).
  { intros k Hk. destruct (F k Hk) as (_ & _ & [[-> O]|[-> O]] & _); cbn; tauto || (split; [discriminate|tauto]). }
  unfold all_set. destruct (s_menzen s) as [|a [|b [|c [|d [|]]]]]; try discriminate LM. cbn [forallb].
  rewrite !andb_true_iff. 
  pose proof (G 0%nat ltac:(lia)) as G0. pose proof (G 1%nat ltac:(lia)) as G1. pose proof (G 2%nat ltac:(lia)) as G2. pose proof (G 3%nat ltac:(lia)) as G3.
  cbn [vget nth] in *. unfold vget in *. cbn [nth] in *.
  split.
  - intros (A & B & C & D & _) p Hp. assert (Q : p = 0 \/ p = 1 \/ p = 2 \/ p = 3) by lia.
    destruct Q as [->|[->|[->| ->]]]; [apply G0|apply G1|apply G2|apply G3]; assumption.
  - intros H. repeat split; [apply G0|apply G1|apply G2|apply G3]; apply H; cbn; lia.
Qed.

(** ** Queries at a draw *)
Lemma evaluate_tsumo_ok lib a p htf nl t ha ri te ch ag :
  evaluate_tsumo lib a p htf nl t ha ri te ch = Ok ag ->
  exists q b, lib q = Ok b /\ ag = win_if b (Z.of_nat p) /\
   mapM (fun nk => lib_meld_of (nk_code nk)) (row nl p) = Ok (q_melds q) /\ asks_hand (row htf p) q /\
   q = MkQuery (q_man q) (q_pin q) (q_sou q) (q_honors q) t (q_melds q) (g_doras a)
               true (truthy (vget (g_reaches a) p)) (truthy (vget (g_ippatsu a) p)) ri false
               ha false (truthy (vget (g_dreaches a) p)) te ch false
               (g_player_wind a) (g_round_wind a) (g_kyotaku a) (g_honba a).
Proof.
  unfold evaluate_tsumo. unfold asks_hand. destruct (hand_tensor2strs (row htf p)) as [[[man pin] sou] hon]. intros H. binv H.
  injection H as <-. eexists. exists x0. split; [exact E0|]. split; [unfold win_if; now destruct x0|]. split; [exact E|]. split; reflexivity.
Qed.

Lemma at_draw_fields w t s : 0 <= w -> let sa := at_draw (Z.to_nat w) t s in let sb := apply (PlDraw w t) s in
  s_doras sa = s_doras sb /\ s_reaches sa = s_reaches sb /\ s_dreaches sa = s_dreaches sb /\ s_kyotaku sa = s_kyotaku sb /\
  s_htf sa = s_htf sb /\ s_melds sa = s_melds sb /\ s_rtsumo sa = s_rtsumo sb /\ s_cycles sa = s_cycles sb /\
  s_menzen sa = s_menzen sb /\ s_ht sa = s_ht sb /\ s_hands sa = s_hands sb /\
  s_ippatsu sa = (if truthy (vget (s_ippatsu s) (Z.to_nat w)) then vset (s_ippatsu s) (Z.to_nat w) 0 else s_ippatsu s).
Proof. intros H. cbv zeta. unfold at_draw. rewrite Z2Nat.id by exact H. generalize (apply (PlDraw w t) s). intros sa. destruct sa. repeat split. Qed.

Lemma tsumo_query L go e0 evs n s' pls w t : runs L go e0 evs n s' (pls ++ [PlDraw w t]) ->
  exists q, tsumo_asks L s' w q /\ asks_about n s' w q /\ asks_hand (vec (s_htf s') w) q /\ q_win_tile q = t /\
   q_tsumo q = true /\ q_ippatsu q = false /\ q_rinshan q = false /\ q_chankan q = false /\
   q_haitei q = (s_rtsumo s' =? 0) /\ q_houtei q = false /\ q_renhou q = false /\
   q_tenhou q = (draws pls =? 0) /\
   q_chiihou q = ((2 <=? s_cycles s') && (s_cycles s' <=? 4) && all_set (s_menzen s')).
Proof.
  intros R. destruct (runs_snoc _ _ _ _ _ _ _ _ R) as (evs1 & ev & s & _ & R1 & W & S & E & _ & Es).
  destruct (cyc_inv_holds _ _ _ _ _ _ _ R1) as (C1 & C2 & C3). destruct (ipp_inv_holds _ _ _ _ _ _ _ R1) as (I1 & _).
  cbn [astep seated] in *. apply draw_inv in E as (_ & ag & re & ank & kak & E1 & _ & _ & _ & Ed); [|lia|exact W].
  apply evaluate_tsumo_ok in E1 as (q & b & Eq & -> & Em & Eh & Ef).
  rewrite Z2Nat.id in Ed by lia.
  destruct (at_draw_fields w t s ltac:(lia)) as (F1 & F2 & F3 & F4 & F5 & F6 & F7 & F8 & F9 & F10 & F11 & F12).
  unfold args_of in Ef. cbn [g_doras g_reaches g_ippatsu g_dreaches g_player_wind g_round_wind g_kyotaku g_honba] in Ef.
  rewrite F1, F2, F3, F4, F7, F8, F9, F12 in Ef. rewrite F5 in Eh. rewrite F6 in Em.
  assert (Cy : s_cycles s + 1 = 1 <-> draws pls = 0).
  { pose proof (draws_nonneg pls). split; [lia|]. intros D. destruct (C2 D) as (_ & D2 & _). lia. }
  apply strip_fields in Es as (_ & _ & G1 & _ & _ & _ & G2 & G3 & _ & G4 & G5 & G6 & _ & G7 & G8 & G9 & _).
  rewrite <- G1 in Eh. rewrite <- G8 in Em. rewrite <- G3, <- G4, <- G5, <- G6, <- G2, <- G7 in Ef.
  assert (Ete : (s_cycles (apply (PlDraw w t) s) =? 1) = (draws pls =? 0)).
  { rewrite ap_cycles. destruct (Z.eqb_spec (s_cycles s + 1) 1), (Z.eqb_spec (draws pls) 0); tauto. }
  rewrite Ete in Ef. rewrite <- G9 in Ef.
  assert (Eip : truthy (vget (if truthy (vget (s_ippatsu s) (Z.to_nat w)) then vset (s_ippatsu s) (Z.to_nat w) 0 else s_ippatsu s) (Z.to_nat w)) = false).
  { destruct (truthy (vget (s_ippatsu s) (Z.to_nat w))) eqn:Eo; [|exact Eo]. rewrite vget_vset by (rewrite (wf_ippatsu _ W); lia). now rewrite Nat.eqb_refl. }
  rewrite Eip in Ef.
  exists q. rewrite Ef. cbn [q_win_tile q_tsumo q_ippatsu q_rinshan q_chankan q_haitei q_houtei q_renhou q_tenhou q_chiihou].
  rewrite <- Ef.
  split. { exists b. do 4 eexists. split; [exact Eq|]. rewrite Ed. reflexivity. }
  split. { split; [exact Em|]. rewrite Ef. repeat split. }
  split; [exact Eh|]. repeat split.
Qed.

(** ** Queries at a discard or added kan *)
Lemma Forall2_nth {A B} (P : A -> B -> Prop) l r k da db : Forall2 P l r -> (k < List.length l)%nat -> P (nth k l da) (nth k r db).
Proof. intros F. revert k. induction F; intros [|k] Hk; cbn in *; try lia; auto. apply IHF. lia. Qed.

Lemma evaluate_ron_nth lib a pl htf nl su t ck ha rn htf' rons k : (k < 4)%nat ->
  evaluate_ron lib a pl htf nl su t ck ha rn = Ok (htf', rons) ->
  if (Z.of_nat k =? pl) || truthy (vget (row su k) (hd 0%nat (tix t))) then nth k rons None = None
  else exists q b, lib q = Ok b /\ nth k rons None = (if b then Some (AgariDecision (Z.of_nat k) false) else None) /\
   mapM (fun nk => lib_meld_of (nk_code nk)) (row nl k) = Ok (q_melds q) /\ asks_hand (vadd (row htf k) (hd 0%nat (tix t)) 1) q /\
   q = MkQuery (q_man q) (q_pin q) (q_sou q) (q_honors q) t (q_melds q) (g_doras a)
               false (truthy (vget (g_reaches a) k)) (truthy (vget (g_ippatsu a) k)) false ck
               ha false (truthy (vget (g_dreaches a) k)) false false rn
               (g_player_wind a) (g_round_wind a) (g_kyotaku a) (g_honba a).
Proof.
  intros Hk H. unfold evaluate_ron in H. binv H. injection H as _ <-. apply tile2idx_ok in E. subst x.
  apply mapM_ok in E0. pose proof (Forall2_nth _ _ _ k 0%nat ([], None) E0 ltac:(rewrite seq_length; lia)) as P.
  cbv beta in P. rewrite seq_nth in P by lia. cbn [plus] in P.
  assert (Nr : nth k (map snd x0) None = snd (nth k x0 ([], None))) by apply (map_nth (@snd (list Z) (option decision)) x0 ([], None)). rewrite Nr. clear Nr.
  destruct (nth k x0 ([], None)) as [h o] eqn:En. cbn [snd]. destruct (_ =? pl); cbn [orb].
  - now injection P as _ <-.
  - unfold ron_for in P. destruct (truthy _); [now injection P as _ <-|].
    unfold asks_hand. destruct (hand_tensor2strs _) as [[[man pin] sou] hon]. binv P.
    injection P as _ <-. eexists. exists x1. split; [exact E1|]. split; [reflexivity|]. split; [exact E|]. split; reflexivity.
Qed.

Lemma dec_lists_nth rons f k : (k < 4)%nat ->
  nth k (dec_lists rons f) [] = [match nth k rons None with Some d => [d] | None => [] end; []; f k].
Proof. intros H. do 4 (destruct k as [|k]; [reflexivity|]). lia. Qed.

Lemma sute_furiten L go e0 evs n s pls p t : runs L go e0 evs n s pls -> 0 <= p < 4 ->
  (truthy (vget (row (s_sute s) (Z.to_nat p)) (hd 0%nat (tix t))) = true <-> furiten p t pls).
Proof.
  intros R Hp. destruct (flag_inv_holds _ _ _ _ _ _ _ R (Z.to_nat p) ltac:(lia)) as (_ & _ & _ & F).
  pose proof (tid_range t) as Rt. rewrite Z2Nat.id in F by lia.
  rewrite (proj1 (tix_hd t)). assert (B : 0 <= tid t / 4 < 34) by (split; [apply Z.div_pos; lia|apply Z.div_lt_upper_bound; lia]).
  rewrite F by lia. unfold furiten.
  pose proof (num_pos (Z.to_nat (tid t / 4)) (discarded p pls)) as N.
  assert (C : forall x, in_class (Z.to_nat (tid t / 4)) x = true <-> x / 4 = tid t / 4).
  { intros x. unfold in_class. destruct (Nat.ltb_spec (Z.to_nat (tid t / 4)) 34); [|lia]. rewrite Z2Nat.id by lia. apply Z.eqb_eq. }
  unfold yes. destruct (Z.ltb_spec 0 (num (Z.to_nat (tid t / 4)) (discarded p pls))) as [H|H]; cbn.
  - split; [|reflexivity]. intros _. apply N in H as (x & Hx & Hc). exists x. split; [exact Hx|]. now apply C.
  - split; [discriminate|]. intros (x & Hx & Hc). exfalso. assert (0 < num (Z.to_nat (tid t / 4)) (discarded p pls)); [|lia]. apply N. exists x. split; [exact Hx|]. now apply C.
Qed.

Lemma discarded_other w t p pls : w <> p -> discarded p (pls ++ [PlDiscard w t]) = discarded p pls.
Proof. intros N. rewrite discarded_app. unfold discarded at 2. cbn. destruct (Z.eqb_spec w p); [contradiction|]. apply app_nil_r. Qed.

Lemma ron_query L go e0 evs n s' pls w t : runs L go e0 evs n s' (pls ++ [PlDiscard w t]) ->
  forall p, 0 <= p < 4 ->
  (p = w \/ furiten p t pls -> no_ron s' w p) /\
  (p <> w -> ~ furiten p t pls -> exists q, ron_asks L s' w p q /\ asks_about n s' p q /\
   asks_hand (vadd (vec (s_htf s') p) (Z.to_nat (tid t / 4)) 1) q /\ q_win_tile q = t /\
   q_tsumo q = false /\ q_ippatsu q = truthy (flag (s_ippatsu s') p) /\ q_rinshan q = false /\ q_chankan q = false /\
   q_haitei q = (s_rtsumo s' =? 0) /\ q_houtei q = false /\ q_tenhou q = false /\ q_chiihou q = false /\
   q_renhou q = ((s_cycles s' <=? 3) && (s_cycles s' <=? w) && all_set (s_menzen s'))).
Proof.
  intros R p Hp. destruct (runs_snoc _ _ _ _ _ _ _ _ R) as (evs1 & ev & s & _ & R1 & W & S & E & _ & Es).
  pose proof (sute_furiten _ _ _ _ _ _ _ p t R Hp) as Fu.
  cbn [astep seated] in *. apply discard_inv in E as (_ & so & acq & tok & rons & nakis & _ & _ & _ & Er & _ & _ & Ed); [|lia|exact W].
  rewrite Z2Nat.id in * by lia.
  assert (Hh : exists nl, s_half s' = PostTurn w so (dec_lists rons nl) (ntokens s) :: tl (s_half s')) by (rewrite Ed; eexists; reflexivity).
  destruct Hh as (nl & Hh). clear Ed.
  apply (evaluate_ron_nth _ _ _ _ _ _ _ _ _ _ _ _ (Z.to_nat p)) in Er; [|lia]. rewrite Z2Nat.id in Er by lia.
  apply strip_fields in Es as (_ & _ & G1 & _ & _ & G0 & G2 & G3 & _ & G4 & G5 & G6 & G10 & G7 & G8 & G9 & _).
  rewrite <- G0, <- G1 in Er.
  pose proof (dec_lists_nth rons nl (Z.to_nat p) ltac:(lia)) as Dl.
  assert (Fu2 : p <> w -> (truthy (vget (row (s_sute s') (Z.to_nat p)) (hd 0%nat (tix t))) = true <-> furiten p t pls)).
  { intros N. rewrite Fu. unfold furiten. now rewrite discarded_other by auto. }
  split.
  - intros Hc. assert (Ec : (p =? w) || truthy (vget (row (s_sute s') (Z.to_nat p)) (hd 0%nat (tix t))) = true).
    { destruct (Z.eqb_spec p w) as [Epw|N]; [reflexivity|]. apply Fu2; [exact N|]. destruct Hc; [contradiction|assumption]. }
    rewrite Ec in Er. rewrite Er in Dl. exists so, (dec_lists rons nl). do 3 eexists. split; [exact Hh|exact Dl].
  - intros N Nf. assert (Ec : (p =? w) || truthy (vget (row (s_sute s') (Z.to_nat p)) (hd 0%nat (tix t))) = false).
    { destruct (Z.eqb_spec p w) as [Epw|_]; [contradiction|]. cbn [orb]. apply Bool.not_true_is_false. intros H. apply Nf. now apply Fu2. }
    rewrite Ec in Er. destruct Er as (q & b & Eq & En & Em & Eh & Ef). rewrite En in Dl.
    unfold args_of in Ef. cbn [g_doras g_reaches g_ippatsu g_dreaches g_player_wind g_round_wind g_kyotaku g_honba] in Ef.
    rewrite ap_rtsumo in G2. rewrite ap_doras in G3. rewrite ap_kyotaku in G4. rewrite ap_reaches in G5. rewrite ap_dreaches in G6.
    rewrite ap_ippatsu in G10. rewrite ap_menzen in G7. rewrite ap_melds in G8. rewrite ap_cycles in G9.
    rewrite <- G2, <- G3, <- G4, <- G5, <- G6, <- G10, <- G7, <- G9 in Ef. rewrite <- G8 in Em.
    rewrite (proj1 (tix_hd t)) in Eh.
    exists q. rewrite Ef. cbn [q_win_tile q_tsumo q_ippatsu q_rinshan q_chankan q_haitei q_houtei q_renhou q_tenhou q_chiihou]. rewrite <- Ef.
    split. { exists b, so, (dec_lists rons nl). do 3 eexists. split; [exact Eq|]. split; [exact Hh|]. rewrite Dl. unfold win_if. destruct b; reflexivity. }
    split. { split; [exact Em|]. rewrite Ef. repeat split. }
    split; [exact Eh|]. repeat split.
Qed.

Lemma evaluate_ron_args lib n sa pl htf nl su t ck ha rn htf' rons k : (k < 4)%nat ->
  evaluate_ron lib (args_of n sa) pl htf nl su t ck ha rn = Ok (htf', rons) ->
  if (Z.of_nat k =? pl) || truthy (vget (row su k) (hd 0%nat (tix t))) then nth k rons None = None
  else exists q b, lib q = Ok b /\ nth k rons None = (if b then Some (AgariDecision (Z.of_nat k) false) else None) /\
   mapM (fun nk => lib_meld_of (nk_code nk)) (row nl k) = Ok (q_melds q) /\ asks_hand (vadd (row htf k) (hd 0%nat (tix t)) 1) q /\
   q = MkQuery (q_man q) (q_pin q) (q_sou q) (q_honors q) t (q_melds q) (s_doras sa)
               false (truthy (vget (s_reaches sa) k)) (truthy (vget (s_ippatsu sa) k)) false ck
               ha false (truthy (vget (s_dreaches sa) k)) false false rn
               (n_player_wind n) (n_round_wind n) (s_kyotaku sa) (n_honba n).
Proof. exact (evaluate_ron_nth lib (args_of n sa) pl htf nl su t ck ha rn htf' rons k). Qed.

Lemma half_of x y hs z : s_half (set_cur x (set_sobj y (set_half hs z))) = hs.
Proof. now destruct z. Qed.

Lemma chankan_query L go e0 evs n s' pls w c : is_kakan c = true -> runs L go e0 evs n s' (pls ++ [PlCall w c]) ->
  forall p, 0 <= p < 4 ->
  (p = w \/ furiten p (hd 0 (shown_by c)) pls -> no_ron s' w p) /\
  (p <> w -> ~ furiten p (hd 0 (shown_by c)) pls -> exists q, ron_asks L s' w p q /\ asks_about n s' p q /\
   asks_hand (vadd (vec (s_htf s') p) (Z.to_nat (tid (hd 0 (shown_by c)) / 4)) 1) q /\ q_win_tile q = hd 0 (shown_by c) /\
   q_tsumo q = false /\ q_ippatsu q = false /\ q_rinshan q = false /\ q_chankan q = true /\
   q_haitei q = false /\ q_houtei q = false /\ q_tenhou q = false /\ q_chiihou q = false /\ q_renhou q = false).
Proof.
  intros Hk R p Hp. destruct (runs_snoc _ _ _ _ _ _ _ _ R) as (evs1 & ev & s & _ & R1 & W & S & E & _ & Es).
  pose proof (sute_furiten _ _ _ _ _ _ _ p (hd 0 (shown_by c)) R Hp) as Fu. destruct (ipp_inv_holds _ _ _ _ _ _ _ R1) as (I1 & _).
  cbn [astep seated] in *. apply bind_ok in E as (u & _ & E). apply bind_ok in E as (nk & En & E).
  apply (call_inv L n s w c nk s' W En) in E as ((Hw & _) & tok & _ & E). cbv zeta in E. destruct E as (hs & Ed & E). rewrite Hk in E.
  destruct E as (rons & Er & _ & ->).
  apply (f_equal s_half) in Ed. rewrite half_of in Ed.
  match type of Ed with _ = PostTurn _ ?so0 _ _ :: ?r => remember so0 as so eqn:Eso; remember r as rest eqn:Erest end.
  assert (Hh : s_half s' = PostTurn w so (dec_lists rons (fun _ => [])) (ntokens s + 1) :: rest) by exact Ed.
  clear Ed.
  apply (evaluate_ron_args _ _ _ _ _ _ _ _ _ _ _ _ _ (Z.to_nat p)) in Er; [|lia]. rewrite Z2Nat.id in Er by lia.
  assert (Fl : vget (s_ippatsu (apply (PlCall w c) s)) (Z.to_nat p) = 0) by (rewrite ap_ippatsu; apply cleared_get; exact I1).
  apply strip_fields in Es as (_ & _ & G1 & _ & _ & G0 & G2 & G3 & _ & G4 & G5 & G6 & G10 & G7 & G8 & G9 & _).
  rewrite <- G0, <- G1, <- G8 in Er. rewrite <- G10 in Fl.
  rewrite <- G3, <- G4, <- G5, <- G6, <- G10 in Er. rewrite Fl in Er.
  pose proof (dec_lists_nth rons (fun _ => []) (Z.to_nat p) ltac:(lia)) as Dl.
  assert (Fu2 : truthy (vget (row (s_sute s') (Z.to_nat p)) (hd 0%nat (tix (hd 0 (shown_by c))))) = true <-> furiten p (hd 0 (shown_by c)) pls).
  { rewrite Fu. unfold furiten. rewrite discarded_app. unfold discarded at 2. cbn. now rewrite app_nil_r. }
  split.
  - intros Hc. assert (Ec : (p =? w) || truthy (vget (row (s_sute s') (Z.to_nat p)) (hd 0%nat (tix (hd 0 (shown_by c))))) = true).
    { destruct (Z.eqb_spec p w) as [Epw|N]; [reflexivity|]. apply Fu2. destruct Hc; [contradiction|assumption]. }
    rewrite Ec in Er. rewrite Er in Dl. exists so, (dec_lists rons (fun _ => [])). do 3 eexists. split; [exact Hh|exact Dl].
  - intros N Nf. assert (Ec : (p =? w) || truthy (vget (row (s_sute s') (Z.to_nat p)) (hd 0%nat (tix (hd 0 (shown_by c))))) = false).
    { destruct (Z.eqb_spec p w) as [Epw|_]; [contradiction|]. cbn [orb]. apply Bool.not_true_is_false. intros H. apply Nf. now apply Fu2. }
    rewrite Ec in Er. destruct Er as (q & b & Eq & Enn & Em & Eh & Ef). rewrite Enn in Dl.
    rewrite (proj1 (tix_hd (hd 0 (shown_by c)))) in Eh.
    exists q. rewrite Ef. cbn [q_win_tile q_tsumo q_ippatsu q_rinshan q_chankan q_haitei q_houtei q_renhou q_tenhou q_chiihou]. rewrite <- Ef.
    split. { exists b, so, (dec_lists rons (fun _ => [])). do 3 eexists. split; [exact Eq|]. split; [exact Hh|]. rewrite Dl. unfold win_if. destruct b; reflexivity. }
    split. { split; [exact Em|]. rewrite Ef. repeat split. }
    split; [exact Eh|]. repeat split.
Qed.

(** ** Double riichi *)
Lemma runs_plays_prefix L go e0 evs n s h1 h2 : runs L go e0 evs n s (h1 ++ h2) ->
  exists evs1 evs2 s1, evs = evs1 ++ evs2 /\ runs L go e0 evs1 n s1 h1.
Proof.
  intros R. destruct (runs_firstn _ _ _ _ _ _ _ (List.length h1) R) as (s1 & R1).
  rewrite firstn_app, Nat.sub_diag, firstn_all in R1. cbn [firstn] in R1. rewrite app_nil_r in R1.
  exists (firstn (List.length h1) evs), (skipn (List.length h1) evs), s1. split; [now rewrite firstn_skipn|exact R1].
Qed.

Lemma never_opened_app a b : never_opened (a ++ b) -> never_opened a.
Proof. intros H p Hp (c & Hc & Q). apply (H p Hp). exists c. split; [apply in_or_app; now left|exact Q]. Qed.

Lemma dreach_split L go e0 evs n s pls p : runs L go e0 evs n s pls -> 0 <= p < 4 -> flag (s_dreaches s) p = 1 ->
  exists h1 h2, pls = h1 ++ PlReach2 p :: h2 /\ draws h1 <= 4 /\ never_opened h1.
Proof.
  revert evs s. induction pls as [|a h IH] using rev_ind; intros evs s R Hp Hf.
  - destruct (flags_exact _ _ _ _ _ _ _ p R Hp) as (F & _ & _ & D & _). apply D, F in Hf. destruct Hf.
  - destruct (runs_snoc _ _ _ _ _ _ _ _ R) as (evs1 & ev & s1 & _ & R1 & W & S & E & G & Es).
    apply strip_fields in Es as (_ & _ & _ & _ & _ & _ & _ & _ & _ & _ & _ & Ed & _). rewrite Ed, ap_dreaches in Hf.
    assert (Old : flag (s_dreaches s1) p = 1 -> exists h1 h2, h ++ [a] = h1 ++ PlReach2 p :: h2 /\ draws h1 <= 4 /\ never_opened h1).
    { intros H. destruct (IH _ _ R1 Hp H) as (h1 & h2 & -> & Q). exists h1, (h2 ++ [a]). rewrite <- app_assoc. split; [reflexivity|exact Q]. }
    destruct a as [w t|w t|w c|w|w|t]; auto. pose proof (guard_seat _ _ S G) as Qw. cbv beta iota in Qw.
    destruct ((s_cycles s1 <=? 4) && all_set (s_menzen s1)) eqn:Ec; [|auto].
    apply andb_prop in Ec as [Ec Em]. apply Z.leb_le in Ec. unfold flag in Hf.
    destruct W as (_ & _ & _ & _ & _ & _ & _ & _ & _ & _ & _ & _ & LD & _).
    rewrite vget_vset in Hf by (rewrite LD; lia). destruct (Nat.eqb_spec (Z.to_nat w) (Z.to_nat p)) as [Ew|_]; [|auto].
    assert (w = p) by lia. subst w. exists h, []. split; [reflexivity|].
    destruct (cyc_inv_holds _ _ _ _ _ _ _ R1) as (C1 & _). split; [lia|]. exact (proj1 (all_set_menzen _ _ _ _ _ _ _ R1) Em).
Qed.

(** Without any call the flag is exact. *)
Lemma dreach_complete L go e0 evs n s pls p h1 h2 : runs L go e0 evs n s pls -> 0 <= p < 4 -> pls = h1 ++ PlReach2 p :: h2 ->
  calls h1 = 0 -> draws h1 <= 4 -> flag (s_dreaches s) p = 1.
Proof.
  revert evs s pls. induction h2 as [|a h2 IH] using rev_ind; intros evs s pls R Hp -> Hc Hd.
  - destruct (runs_snoc _ _ _ _ _ _ _ _ R) as (evs1 & ev & s1 & _ & R1 & W & S & E & G & Es).
    apply strip_fields in Es as (_ & _ & _ & _ & _ & _ & _ & _ & _ & _ & _ & Ed & _). rewrite Ed, ap_dreaches.
    destruct (cyc_inv_holds _ _ _ _ _ _ _ R1) as (_ & _ & C). specialize (C Hc).
    assert (Em : all_set (s_menzen s1) = true).
    { apply (all_set_menzen _ _ _ _ _ _ _ R1). intros q Hq (c & Ic & _). unfold calls in Hc.
      assert (I : In (PlCall q c) (filter (fun e => match e with PlCall _ _ => true | _ => false end) h1)) by (apply filter_In; auto).
      destruct (filter _ h1); [destruct I|discriminate Hc]. }
    rewrite Em. destruct (Z.leb_spec (s_cycles s1) 4); [|lia]. cbn [andb].
    destruct W as (_ & _ & _ & _ & _ & _ & _ & _ & _ & _ & _ & _ & LD & _). unfold flag. rewrite vget_vset by (rewrite LD; lia). now rewrite Nat.eqb_refl.
  - rewrite app_comm_cons, app_assoc in R. destruct (runs_snoc _ _ _ _ _ _ _ _ R) as (evs1 & ev & s1 & _ & R1 & W & S & E & G & Es).
    specialize (IH _ _ _ R1 Hp eq_refl Hc Hd).
    apply strip_fields in Es as (_ & _ & _ & _ & _ & _ & _ & _ & _ & _ & _ & Ed & _). rewrite Ed, ap_dreaches.
    destruct a as [w t|w t|w c|w|w|t]; auto. destruct (_ && _); [|exact IH].
    pose proof (guard_seat _ _ S G) as Qw. cbv beta iota in Qw.
    destruct W as (_ & _ & _ & _ & _ & _ & _ & _ & _ & _ & _ & _ & LD & _). unfold flag. rewrite vget_vset by (rewrite LD; lia).
    destruct (Nat.eqb _ _); [reflexivity|exact IH].
Qed.
