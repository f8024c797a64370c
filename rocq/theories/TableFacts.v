(** Lemmas for C91-C92: the constants of a round, and the ippatsu flags recorded with
    every half-turn. *)
From Coq Require Import ZArith List Bool String Lia.
From Verif Require Import Base Constants Naki Decision Tokens GameInfo Agari Process Tensor VecLemmas SpecMeld SpecTokens SpecRound SpecTurn SpecTensor SpecTable TokensLemmas
  RoundLemmas RoundTiles RoundInv RoundInit RoundBook RoundFlags RoundSplit RoundHalf RoundFacts RoundQuery RoundCount TurnFacts TensorLemmas TensorRound.
Import ListNotations.
Open Scope Z_scope.

(** ** Constants *)
Lemma n_rounds_length go : n_rounds go = game_length go.
Proof.
  unfold n_rounds, game_length. destruct (game_flags go) as (_ & _ & _ & -> & _).
  rewrite field_div by lia. change (2 ^ 1) with 2. pose proof (Z.mod_pos_bound (go / 2 ^ 3) 2 ltac:(lia)) as M.
  destruct (Z.eqb_spec (go / 2 ^ 3 mod 2) 1); lia.
Qed.

Lemma deals_count c n : c <= n -> n mod 4 = 0 -> forall p, 0 <= p < 4 -> deals_left c n p = (n - c + p) / 4.
Proof.
  intros H. remember (Z.to_nat (n - c)) as k eqn:K. revert c H K. induction k as [|k IH]; intros c H K M p Hp; unfold deals_left; rewrite <- K.
  - assert (E : n - c = 0) by lia. rewrite E. cbn. symmetry. apply Z.div_small. lia.
  - cbn [seq filter]. rewrite <- seq_shift.
    assert (F : List.length (filter (fun i => (c + Z.of_nat i) mod 4 =? p) (map S (seq 0 k))) = List.length (filter (fun i => (c + 1 + Z.of_nat i) mod 4 =? p) (seq 0 k))).
    { clear. induction (seq 0 k) as [|i l IH]; [reflexivity|]. cbn [map filter]. replace (c + Z.of_nat (S i)) with (c + 1 + Z.of_nat i) by lia.
      destruct (_ =? p); cbn [List.length]; now rewrite IH. }
    specialize (IH (c + 1) ltac:(lia) ltac:(lia) M p Hp). unfold deals_left in IH. replace (Z.to_nat (n - (c + 1))) with k in IH by lia.
    replace (c + Z.of_nat 0) with c by lia.
    pose proof (Z.div_mod n 4 ltac:(lia)) as Dn. rewrite M in Dn.
    pose proof (Z.div_mod c 4 ltac:(lia)) as Dc. pose proof (Z.mod_pos_bound c 4 ltac:(lia)) as Mc.
    pose proof (Z.div_mod (n - c + p) 4 ltac:(lia)) as D1. pose proof (Z.mod_pos_bound (n - c + p) 4 ltac:(lia)) as M1.
    pose proof (Z.div_mod (n - (c + 1) + p) 4 ltac:(lia)) as D2. pose proof (Z.mod_pos_bound (n - (c + 1) + p) 4 ltac:(lia)) as M2.
    destruct (Z.eqb_spec (c mod 4) p) as [E|E]; cbn [List.length]; rewrite F; lia.
Qed.

Lemma env_exact go e0 n s : init_round go e0 = Ok (n, s) ->
  n_honba n = honba_of e0 /\ n_parent_tensor n = map (fun p => if p =? dealer e0 then 1 else 0) seats /\
  n_rounds_remaining n = game_length go - round_number e0 /\
  n_parent_rounds_remaining n = map (fun i => (game_length go - round_number e0 + i) / 4) seats.
Proof.
  unfold init_round. intros H.
  apply bind_ok in H as (u1 & _ & H). apply bind_ok in H as (ten & _ & H). apply bind_ok in H as (scores & _ & H).
  apply bind_ok in H as (oya & Eo & H). apply bind_ok in H as (parent & Ep & H). apply bind_ok in H as (pi & Ei & H).
  apply bind_ok in H as (seed & Es & H). apply bind_ok in H as (sd & Ed & H).
  assert (Hs : seed_of e0 = sd) by (unfold seed_of; rewrite Es, Ed; reflexivity).
  assert (Hd : dealer e0 = parent mod 4) by (unfold dealer, attr_int; rewrite Eo, Ep; reflexivity).
  destruct sd as [|c [|ho [|ky [|d1 [|d2 [|dora [|]]]]]]]; try discriminate H.
  apply bind_ok in H as (his & _ & H). apply bind_ok in H as (x & _ & H). destruct x as [[hts povs] rem].
  apply bind_ok in H as (di & _ & H). cbv zeta in H. apply bind_ok in H as (hands & _ & H).
  apply bind_ok in H as (u2 & _ & H). apply bind_ok in H as (u3 & _ & H). apply bind_ok in H as (u4 & _ & H).
  apply Ok_inj in H. apply (f_equal fst) in H. cbn [fst] in H. subst n. cbn [n_honba n_rounds_remaining n_parent_tensor n_parent_rounds_remaining].
  unfold honba_of, round_number. rewrite Hs, n_rounds_length, Hd. cbn [nth]. split; [reflexivity|]. split; [|split; reflexivity].
  apply py_index_ok in Ei as [R E]. pose proof (Z.mod_pos_bound parent 4 ltac:(lia)) as M.
  assert (X : Z.of_nat pi = parent mod 4).
  { destruct E as [E|[N E]]; [rewrite <- E; symmetry; apply Z.mod_small; lia|].
    replace (parent mod 4) with ((parent + 1 * 4) mod 4) by (apply Z_mod_plus_full). rewrite Z.mod_small; lia. }
  rewrite <- X. do 4 (destruct pi as [|pi]; [reflexivity|]). lia.
Qed.

(** ** Ippatsu flags *)
Lemma exists_last_or {A} (l : list A) : l = [] \/ exists h x, l = h ++ [x].
Proof. destruct l as [|y l]; [now left|]. right. destruct (exists_last (l := y :: l)) as (h & x & E); [discriminate|]. now exists h, x. Qed.
Lemma declared_snoc p h a : just_declared p (h ++ [a]) <-> riichi_by p a \/ (quiet a /\ just_declared p h).
Proof.
  split.
  - intros (h1 & e & h2 & E & R & Q). destruct (exists_last_or h2) as [->|(h3 & b & ->)].
    + apply app_inj_tail in E as [-> ->]. now left.
    + rewrite app_comm_cons, app_assoc in E. apply app_inj_tail in E as [-> ->]. apply Forall_app in Q as [Q1 Q2]. inversion Q2; subst.
      right. split; [assumption|]. exists h1, e, h3. auto.
  - intros [R|(Q & h1 & e & h2 & -> & R & F)].
    + exists h, a, []. auto.
    + exists h1, e, (h2 ++ [a]). rewrite <- app_assoc. split; [reflexivity|]. split; [exact R|]. apply Forall_app. auto.
Qed.
Lemma declared_nil p : ~ just_declared p [].
Proof. intros (h1 & e & h2 & E & _). destruct h1; discriminate E. Qed.

Definition ipd_inv (h : list play) (s : rstate) : Prop :=
  flags01 (s_ippatsu s) /\ forall p, 0 <= p < 4 -> (flag (s_ippatsu s) p = 1 <-> just_declared p h).

Lemma any_false l : flags01 l -> any_set l = false -> forall p, vget l p = 0.
Proof.
  intros F H p. unfold any_set, truthy in H. apply negb_false_iff, Z.eqb_eq in H. revert p. induction F as [|x l X F IH]; intros p.
  - unfold vget. now destruct p.
  - assert (S : 0 <= vsum l). { clear - F. induction F as [|y l Y _ IH]; [cbn; lia|]. cbn [vsum fold_right] in *. unfold vsum in *. cbn. lia. }
    assert (E : vsum (x :: l) = x + vsum l) by reflexivity. rewrite E in H. destruct p as [|p]; [cbn; lia|]. apply IH. lia.
Qed.
Lemma cleared_zero l p : flags01 l -> vget (if any_set l then repeat 0 4 else l) p = 0.
Proof. intros F. destruct (any_set l) eqn:E; [unfold vget; apply nth_repeat|now apply any_false]. Qed.

Lemma ipd_init e0 s0 : inited e0 s0 -> ipd_inv [] s0.
Proof.
  intros In0. destruct (in_rest _ _ In0) as (_ & _ & _ & H & _). unfold ipd_inv. rewrite H. split; [repeat constructor; auto|].
  intros p Hp. unfold flag, vget. rewrite nth_repeat. split; [discriminate|]. intros D. now apply declared_nil in D.
Qed.
Lemma ipd_step h a s : wf s -> seated a -> ipd_inv h s -> guard a s -> ipd_inv (h ++ [a]) (apply a s).
Proof.
  intros W S (I1 & I2) G. pose proof (guard_seat a s S G) as Q. unfold ipd_inv. rewrite ap_ippatsu.
    pose proof (wf_ippatsu _ W) as LI.
    assert (FD : forall w, flags01 (if truthy (vget (s_ippatsu s) w) then vset (s_ippatsu s) w 0 else s_ippatsu s)).
    { intros w. destruct (truthy _); [apply flags01_set; auto|exact I1]. }
    split.
    + destruct a as [w t|w t|w c|w|w|t]; try exact I1; try (apply flags01_set; auto); apply flags01_cleared; auto.
    + intros p Hp. rewrite declared_snoc. specialize (I2 p Hp). unfold flag in *.
      destruct a as [w t|w t|w c|w|w|t]; cbn [riichi_by quiet]; cbv zeta.
      * rewrite cleared_zero by auto. split; [discriminate|tauto].
      * tauto.
      * rewrite cleared_zero by auto. split; [discriminate|tauto].
      * pose proof (Z.mod_pos_bound w 4 ltac:(lia)) as M. rewrite vget_vset by (rewrite LI; lia).
        destruct (Nat.eqb_spec (Z.to_nat (w mod 4)) (Z.to_nat p)) as [E|E]; [split; [left; lia|reflexivity]|].
        rewrite I2. split; [auto|]. intros [X|X]; [exfalso; apply E; now rewrite X|tauto].
      * destruct G as (_ & G & _). rewrite vget_vset by (rewrite LI; lia).
        destruct (Nat.eqb_spec (Z.to_nat w) (Z.to_nat p)) as [E|E]; [split; [left; lia|reflexivity]|].
        rewrite I2. split; [auto|]. intros [X|X]; [exfalso; apply E; now rewrite X|tauto].
      * tauto.
Qed.
Lemma ipd_strip h s s' : strip s = strip s' -> ipd_inv h s -> ipd_inv h s'.
Proof. intros E I. apply strip_fields in E as (_ & _ & _ & _ & _ & _ & _ & _ & _ & _ & _ & _ & E1 & _). unfold ipd_inv in *. rewrite <- E1. exact I. Qed.

Lemma captured_ipp n p ip x : so_ippatsu (capture n p (set_ippatsu ip x)) = ip.
Proof. reflexivity. Qed.
(** The flags of the object built by a step. *)
Lemma astep_ipp L n s a s' so : wf s -> seated a -> astep L n s a = Ok s' -> s_sobj s' = Some so ->
  match a with
  | PlDraw w _ => so_ippatsu so = if truthy (vget (s_ippatsu s) (Z.to_nat w)) then vset (s_ippatsu s) (Z.to_nat w) 0 else s_ippatsu s
  | PlCall _ _ => so_ippatsu so = s_ippatsu s
  | _ => True
  end.
Proof.
  intros W S H Eo. destruct a as [w t|w t|w c|w|w|t]; cbn [astep seated] in *; try exact I.
  - assert (Ew : w = Z.of_nat (Z.to_nat w)) by lia.
    apply draw_inv in H as (_ & ag & re & ank & kak & _ & _ & _ & _ & ->); [|lia|exact W].
    unfold at_draw in Eo. revert Eo. generalize (apply (PlDraw (Z.of_nat (Z.to_nat w)) t) s). intros sa Eo. cbn [s_sobj set_cur add_half set_half set_sobj] in Eo.
    apply (f_equal (fun o => match o with Some x => x | None => so end)) in Eo. cbv beta iota in Eo. rewrite <- Eo. apply captured_ipp.
  - apply bind_ok in H as (u & _ & H). apply bind_ok in H as (nk & En & H).
    apply (call_inv L n s w c nk s' W En) in H as (_ & tok & Et & H). cbv zeta in H. destruct H as (hs & E & H).
    rewrite E in Eo. cbn [s_sobj set_cur set_sobj] in Eo.
    apply (f_equal (fun o => match o with Some x => x | None => so end)) in Eo. cbv beta iota in Eo. rewrite <- Eo. apply captured_ipp.
Qed.

Definition ipp_shown (pre : list play) (so : sobj) : Prop :=
  List.length (so_ippatsu so) = 4%nat /\
  forall p, 0 <= p < 4 -> (flag (so_ippatsu so) p = 1 /\ right_after_riichi p pre) \/ (flag (so_ippatsu so) p = 0 /\ ~ right_after_riichi p pre).

Lemma flag01 l p : flags01 l -> flag l p = 0 \/ flag l p = 1.
Proof.
  intros F. unfold flag, vget. generalize (Z.to_nat p). induction F as [|x l X _ IH]; intros [|k]; cbn; auto.
Qed.

Lemma right_after_snoc p h a : right_after_riichi p (h ++ [a]) <-> just_declared p h /\ match a with PlDraw w _ => w <> p | PlCall _ _ => True | _ => False end.
Proof.
  split.
  - intros (h' & e & E & D & M). apply app_inj_tail in E as [-> ->]. auto.
  - intros [D M]. exists h, a. auto.
Qed.

Definition ipo_inv (h : list play) (s : rstate) : Prop :=
  ipd_inv h s /\ (forall so, s_sobj s = Some so -> ipp_shown (firstn (last_mom 0 0 h) h) so) /\
  Forall2 (fun m so => ipp_shown (firstn m h) so) (moments 0 0 h) (map state_of (rev (s_half s))).

Lemma ipo_holds L go e0 evs n s pls : runs L go e0 evs n s pls -> ipo_inv pls s.
Proof.
  intros R. eapply (runs_inv_full _ _ _ _ _ _ _ ipo_inv) in R; [exact (proj1 R)| |]; clear.
  - intros s1 In0 E1. destruct (in_rest _ _ In0) as (_ & _ & _ & _ & _ & _ & _ & _ & _ & H1 & H2 & _).
    split; [exact (ipd_init _ _ In0)|]. rewrite H1, H2. split; [discriminate|constructor].
  - intros h a s s' W St (I1 & I2 & I3) G E Es.
    split; [apply (ipd_strip _ (apply a s)); [now symmetry|]; now apply ipd_step|].
    pose proof (astep_ipp L n s a s') as IP. specialize (IP) with (1 := W) (2 := St) (3 := E).
    apply astep_half in E; [|exact W|exact St]. rewrite last_mom_app, moments_app. cbn [plus].
    assert (SH : forall m so, (m <= List.length h)%nat -> ipp_shown (firstn m h) so -> ipp_shown (firstn m (h ++ [a])) so).
    { intros m so Hm Q. rewrite firstn_app. replace (m - List.length h)%nat with 0%nat by lia. cbn [firstn]. now rewrite app_nil_r. }
    assert (OLD : Forall2 (fun m so => ipp_shown (firstn m (h ++ [a])) so) (moments 0 0 h) (map state_of (rev (s_half s)))).
    { eapply Forall2_weaken; [apply (moments_le h 0 0); lia| |exact I3]. cbv beta. intros m so Hm Q. apply SH; [lia|exact Q]. }
    assert (OLDO : forall so, s_sobj s = Some so -> ipp_shown (firstn (last_mom 0 0 h) (h ++ [a])) so).
    { intros so Hso. apply SH; [|auto]. pose proof (last_mom_le h 0 0). lia. }
    assert (FA : firstn (S (List.length h)) (h ++ [a]) = h ++ [a]) by (apply firstn_all2; rewrite app_length; cbn; lia).
    destruct I1 as (F1 & F2). pose proof (wf_ippatsu _ W) as LI.
    assert (MK : forall l, marked l (s_half s) -> map state_of (rev l) = map state_of (rev (s_half s)))
      by (intros l [_ M]; now rewrite !map_rev, M).
    destruct a as [w t|w t|w c|w|w|t]; cbn [last_mom moments seated] in *.
    + destruct E as (so & ds & Q & -> & Eso & _).
      assert (NEW : ipp_shown (firstn (S (List.length h)) (h ++ [PlDraw w t])) so).
      { rewrite FA. specialize (IP so Eso). split; [rewrite IP; destruct (truthy _); [unfold vset; now rewrite length_upd|exact LI]|].
        intros p Hp. rewrite right_after_snoc. unfold flag in *. rewrite IP.
        assert (V : vget (if truthy (vget (s_ippatsu s) (Z.to_nat w)) then vset (s_ippatsu s) (Z.to_nat w) 0 else s_ippatsu s) (Z.to_nat p) =
          if w =? p then 0 else vget (s_ippatsu s) (Z.to_nat p)).
        { destruct (truthy (vget (s_ippatsu s) (Z.to_nat w))) eqn:T.
          - rewrite vget_vset by (rewrite LI; lia). destruct (Nat.eqb_spec (Z.to_nat w) (Z.to_nat p)), (Z.eqb_spec w p); try reflexivity; lia.
          - destruct (Z.eqb_spec w p) as [->|]; [|reflexivity]. unfold truthy in T. apply negb_false_iff, Z.eqb_eq in T. exact T. }
        rewrite V. destruct (Z.eqb_spec w p) as [X|X]; [right; split; [reflexivity|tauto]|].
        destruct (flag01 (s_ippatsu s) p F1) as [Y|Y]; unfold flag in Y; rewrite Y; specialize (F2 p Hp); rewrite Y in F2; [right|left]; split; try reflexivity.
        - intros [D _]. apply F2 in D. discriminate D.
        - split; [now apply F2|exact X]. }
      rewrite Eso. split; [intros so' Hs; injection Hs as <-; exact NEW|].
      cbn [rev]. rewrite map_app. apply Forall2_app; [exact OLD|]. constructor; [exact NEW|constructor].
    + destruct E as (so & ds & tok & Q & -> & -> & _). split; [intros so' Hs; injection Hs as <-; auto|].
      cbn [rev]. rewrite !map_app, <- app_assoc. apply Forall2_app; [exact OLD|]. constructor; [|constructor; [|constructor]]; cbn [state_of]; auto.
    + destruct E as (so & hs & tok & Q & M & Eh & Eso & _).
      assert (NEW : ipp_shown (firstn (S (List.length h)) (h ++ [PlCall w c])) so).
      { rewrite FA. specialize (IP so Eso). split; [rewrite IP; exact LI|].
        intros p Hp. rewrite right_after_snoc, IP. specialize (F2 p Hp).
        destruct (flag01 (s_ippatsu s) p F1) as [Y|Y]; rewrite Y in *; [right|left]; split; try reflexivity.
        - intros [D _]. apply F2 in D. discriminate D.
        - split; [now apply F2|exact I]. }
      rewrite Eso. split; [intros so' Hs; injection Hs as <-; exact NEW|].
      destruct (is_kakan c).
      * destruct Eh as (ds & ->). cbn [rev]. rewrite map_app, (MK _ M). apply Forall2_app; [exact OLD|]. constructor; [exact NEW|constructor].
      * rewrite Eh, (MK _ M), app_nil_r. exact OLD.
    + destruct E as (M & -> & _). rewrite (MK _ M), app_nil_r. auto.
    + destruct E as (M & -> & _). rewrite (MK _ M), app_nil_r. auto.
    + destruct E as (M & -> & _). rewrite (MK _ M), app_nil_r. auto.
Qed.
