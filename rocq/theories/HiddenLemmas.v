(** Two rounds that look the same to a player are processed alike for that player (C109). *)
From Coq Require Import ZArith List Bool String Ascii Lia PeanoNat Permutation.
From Verif Require Import Base Constants Naki Decision Tokens GameInfo Agari Process VecLemmas
  SpecMeld SpecTokens SpecRound SpecTurn SpecTensor Tensor RoundLemmas RoundInv RoundTiles RoundInit RoundBook RoundFlags RoundSplit RoundHalf RoundFacts
  RoundQuery AgariLemmas TensorLemmas TensorRound SpecHidden.
Import ListNotations.
Open Scope Z_scope.

Definition some_tile (o : option Z) : bool := match o with Some _ => true | None => false end.

(** The variables that player [p] can see are equal. *)
Record alike (p : nat) (s t : rstate) : Prop := {
  al_hands : row (s_hands s) p = row (s_hands t) p;
  al_ht : row (s_ht s) p = row (s_ht t) p;
  al_htf : row (s_htf s) p = row (s_htf t) p;
  al_pov : row (s_pov s) p = row (s_pov t) p;
  al_sute : s_sute s = s_sute t;
  al_rtsumo : s_rtsumo s = s_rtsumo t;
  al_doras : s_doras s = s_doras t;
  al_scores : s_scores s = s_scores t;
  al_kyotaku : s_kyotaku s = s_kyotaku t;
  al_reaches : s_reaches s = s_reaches t;
  al_dreaches : s_dreaches s = s_dreaches t;
  al_ippatsu : s_ippatsu s = s_ippatsu t;
  al_menzen : s_menzen s = s_menzen t;
  al_melds : s_melds s = s_melds t;
  al_cycles : s_cycles s = s_cycles t }.

Lemma alike_strip p s t s' t' : strip s = strip s' -> strip t = strip t' -> alike p s t -> alike p s' t'.
Proof.
  intros E F [A1 A2 A3 A4 A5 A6 A7 A8 A9 A10 A11 A12 A13 A14 A15].
  apply strip_fields in E, F. decompose [and] E. decompose [and] F. constructor; congruence.
Qed.

(** What is seen of one play. *)
Definition seen (p : Z) (last : option Z) (a : play) : sight :=
  match a with
  | PlDraw w t => SeenDraw w (if w =? p then Some t else None)
  | PlDiscard w t => SeenDiscard w t (match last with Some x => t =? x | None => false end)
  | PlCall w c => SeenCall w c
  | PlReach1 w => SeenReach1 w
  | PlReach2 w => SeenReach2 w
  | PlDora t => SeenDora t
  end.
Definition next_last (last : option Z) (a : play) : option Z :=
  match a with
  | PlDraw _ t => Some t
  | PlDiscard _ _ => None
  | PlCall _ c => if is_minkan c || is_ankan c || is_kakan c then None else hd_error (claimed_by c)
  | _ => last
  end.
Lemma sights_cons p last a r : sights p last (a :: r) = seen p last a :: sights p (next_last last a) r.
Proof. destruct a; reflexivity. Qed.
Lemma next_acquired a s : s_acquired (apply a s) = next_last (s_acquired s) a.
Proof. rewrite ap_acquired. destruct a; reflexivity. Qed.

Lemma seen_inj p la lb a b : seen p la a = seen p lb b ->
  match a with
  | PlDraw w t => exists t', b = PlDraw w t' /\ (w = p -> t' = t)
  | PlDiscard w t => b = a /\ (match la with Some x => t =? x | None => false end) = (match lb with Some x => t =? x | None => false end)
  | _ => b = a
  end.
Proof.
  destruct a, b; cbn [seen]; intros H; try discriminate H; injection H; intros; subst; try reflexivity.
  - exists tile0. split; [reflexivity|]. intros ->. rewrite Z.eqb_refl in *. congruence.
  - auto.
Qed.

Lemma row_at {A} (m : list (list A)) p q f : (p < List.length m)%nat -> row (upd m q f) p = if Nat.eqb p q then f (row m p) else row m p.
Proof.
  intros H. unfold row. rewrite nth_upd. rewrite (Nat.eqb_sym p q). destruct (Nat.eqb_spec q p) as [->|]; cbn [andb]; [|reflexivity].
  destruct (Nat.ltb_spec p (List.length m)); [reflexivity|lia].
Qed.

(** Bookkeeping preserves likeness. *)
Lemma alike_apply p s t a b : (p < 4)%nat -> wf s -> wf t -> seated a -> seen (Z.of_nat p) (s_acquired s) a = seen (Z.of_nat p) (s_acquired t) b ->
  alike p s t -> alike p (apply a s) (apply b t).
Proof.
  intros Hp Ws Wt Sa Se [A1 A2 A3 A4 A5 A6 A7 A8 A9 A10 A11 A12 A13 A14 A15].
  destruct Ws as (W1 & _ & W2 & _ & W3 & _ & _ & W4 & _). destruct Wt as (V1 & _ & V2 & _ & V3 & _ & _ & V4 & _).
  assert (Hw : forall w : Z, 0 <= w < 4 -> w <> Z.of_nat p -> Nat.eqb p (Z.to_nat w) = false) by (intros; apply Nat.eqb_neq; lia).
  Ltac same A1 A2 A3 A4 A5 A6 A7 A8 A9 A10 A11 A12 A13 A14 A15 := rewrite ?A1, ?A2, ?A3, ?A4, ?A5, ?A6, ?A7, ?A8, ?A9, ?A10, ?A11, ?A12, ?A13, ?A14, ?A15; reflexivity.
  apply seen_inj in Se. destruct a as [w x|w x|w c|w|w|x].
  - destruct Se as (x' & -> & Ex). cbn [seated] in Sa.
    constructor; rewrite ?ap_hands, ?ap_ht, ?ap_htf, ?ap_pov, ?ap_sute, ?ap_rtsumo, ?ap_doras, ?ap_scores, ?ap_kyotaku, ?ap_reaches, ?ap_dreaches, ?ap_ippatsu, ?ap_menzen, ?ap_melds, ?ap_cycles; cbv zeta; try same A1 A2 A3 A4 A5 A6 A7 A8 A9 A10 A11 A12 A13 A14 A15.
    all: try (rewrite !row_at by lia; destruct (Z.eq_dec w (Z.of_nat p)) as [E|E]; [rewrite (Ex E); same A1 A2 A3 A4 A5 A6 A7 A8 A9 A10 A11 A12 A13 A14 A15|rewrite Hw by assumption; assumption]).
  - destruct Se as (-> & _). 
    constructor; rewrite ?ap_hands, ?ap_ht, ?ap_htf, ?ap_pov, ?ap_sute, ?ap_rtsumo, ?ap_doras, ?ap_scores, ?ap_kyotaku, ?ap_reaches, ?ap_dreaches, ?ap_ippatsu, ?ap_menzen, ?ap_melds, ?ap_cycles; cbv zeta; try same A1 A2 A3 A4 A5 A6 A7 A8 A9 A10 A11 A12 A13 A14 A15.
    all: try (rewrite !row_at by lia; same A1 A2 A3 A4 A5 A6 A7 A8 A9 A10 A11 A12 A13 A14 A15).
    rewrite !row_at by (rewrite map_length; lia). rewrite !row_map by (right; lia). same A1 A2 A3 A4 A5 A6 A7 A8 A9 A10 A11 A12 A13 A14 A15.
  - subst b.
    constructor; rewrite ?ap_hands, ?ap_ht, ?ap_htf, ?ap_pov, ?ap_sute, ?ap_rtsumo, ?ap_doras, ?ap_scores, ?ap_kyotaku, ?ap_reaches, ?ap_dreaches, ?ap_ippatsu, ?ap_menzen, ?ap_melds, ?ap_cycles; cbv zeta; try same A1 A2 A3 A4 A5 A6 A7 A8 A9 A10 A11 A12 A13 A14 A15.
    all: try (rewrite !row_at by lia; same A1 A2 A3 A4 A5 A6 A7 A8 A9 A10 A11 A12 A13 A14 A15).
    + destruct (hd_error (claimed_by c)); [rewrite !row_at by lia|]; same A1 A2 A3 A4 A5 A6 A7 A8 A9 A10 A11 A12 A13 A14 A15.
    + rewrite !row_map_others by lia. same A1 A2 A3 A4 A5 A6 A7 A8 A9 A10 A11 A12 A13 A14 A15.
  - subst b.
    constructor; rewrite ?ap_hands, ?ap_ht, ?ap_htf, ?ap_pov, ?ap_sute, ?ap_rtsumo, ?ap_doras, ?ap_scores, ?ap_kyotaku, ?ap_reaches, ?ap_dreaches, ?ap_ippatsu, ?ap_menzen, ?ap_melds, ?ap_cycles; cbv zeta; same A1 A2 A3 A4 A5 A6 A7 A8 A9 A10 A11 A12 A13 A14 A15.
  - subst b.
    constructor; rewrite ?ap_hands, ?ap_ht, ?ap_htf, ?ap_pov, ?ap_sute, ?ap_rtsumo, ?ap_doras, ?ap_scores, ?ap_kyotaku, ?ap_reaches, ?ap_dreaches, ?ap_ippatsu, ?ap_menzen, ?ap_melds, ?ap_cycles; cbv zeta; same A1 A2 A3 A4 A5 A6 A7 A8 A9 A10 A11 A12 A13 A14 A15.
  - subst b.
    constructor; rewrite ?ap_hands, ?ap_ht, ?ap_htf, ?ap_pov, ?ap_sute, ?ap_rtsumo, ?ap_doras, ?ap_scores, ?ap_kyotaku, ?ap_reaches, ?ap_dreaches, ?ap_ippatsu, ?ap_menzen, ?ap_melds, ?ap_cycles; cbv zeta; try same A1 A2 A3 A4 A5 A6 A7 A8 A9 A10 A11 A12 A13 A14 A15.
    rewrite !row_map by (right; lia). same A1 A2 A3 A4 A5 A6 A7 A8 A9 A10 A11 A12 A13 A14 A15.
Qed.

(** ** Half-turns *)
Definition half_like (p : nat) (h h' : halfturn sobj) : Prop :=
  match h, h' with
  | DuringTurn q so ds e, DuringTurn q' so' ds' e' => q = q' /\ so = so' /\ e = e' /\ (q = Z.of_nat p -> ds = ds')
  | DiscardTurn q so x e, DiscardTurn q' so' x' e' => q = q' /\ so = so' /\ e = e' /\ x = x'
  | PostTurn q so ds e, PostTurn q' so' ds' e' => q = q' /\ so = so' /\ e = e' /\ nth p ds [] = nth p ds' []
  | _, _ => False
  end.
Record like (p : nat) (s t : rstate) : Prop := {
  lk_vars : alike p s t;
  lk_half : Forall2 (half_like p) (s_half s) (s_half t);
  lk_tokens : s_tokens s = s_tokens t;
  lk_sobj : s_sobj s = s_sobj t }.

Lemma upd_during_like p f l l' : Forall2 (half_like p) l l' -> Forall2 (half_like p) (upd_during f l) (upd_during f l').
Proof.
  intros F. destruct F as [|h h' l l' H F]; [constructor|]. destruct h, h'; cbn [half_like upd_during] in *; try contradiction; constructor; auto; cbn [half_like].
  - destruct H as (-> & -> & -> & H). repeat split. intros E. now rewrite (H E).
Qed.
Lemma upd_post_like p f l l' : f [] = [] -> Forall2 (half_like p) l l' -> Forall2 (half_like p) (upd_post (map f) l) (upd_post (map f) l').
Proof.
  intros E F. destruct F as [|h h' l l' H F]; [constructor|]. destruct h, h'; cbn [half_like upd_post] in *; try contradiction; constructor; auto; cbn [half_like].
  - destruct H as (-> & -> & -> & H). repeat split. rewrite <- E. rewrite !(map_nth f). now rewrite H.
Qed.

Lemma capture_like n q p s t : alike p s t -> capture n q s = capture n q t.
Proof. intros []. unfold capture. congruence. Qed.
Lemma args_like n p s t : alike p s t -> args_of n s = args_of n t.
Proof. intros []. unfold args_of. congruence. Qed.
Lemma alike_ippatsu p s t ip : alike p s t -> alike p (set_ippatsu ip s) (set_ippatsu ip t).
Proof. intros []. destruct s, t. constructor; cbn in *; auto. Qed.
Lemma ntokens_like s t : s_tokens s = s_tokens t -> ntokens s = ntokens t.
Proof. unfold ntokens. now intros ->. Qed.

Lemma mask_like p w x r hands hands' nk nk' : (p < 4)%nat -> List.length hands = 4%nat -> List.length hands' = 4%nat ->
  decision_mask w hands x r = Ok nk -> decision_mask w hands' x r = Ok nk' -> row hands p = row hands' p -> nth p nk [] = nth p nk' [].
Proof.
  intros Hp L1 L2 E1 E2 Er. unfold decision_mask in E1, E2. apply mapM_ok in E1, E2.
  assert (Lz : List.length (zrange 4) = 4%nat) by reflexivity.
  pose proof (Forall2_nth _ _ _ p (0, []) [] E1 ltac:(rewrite combine_length, Lz, L1; cbn; lia)) as P1.
  pose proof (Forall2_nth _ _ _ p (0, []) [] E2 ltac:(rewrite combine_length, Lz, L2; cbn; lia)) as P2.
  cbv beta in P1, P2. rewrite combine_nth in P1, P2 by congruence. cbn [fst snd] in P1, P2. unfold row in Er. rewrite Er in P1. congruence.
Qed.

Lemma dec_like p r r' f f' : (p < 4)%nat -> nth p r None = nth p r' None -> f p = f' p -> nth p (dec_lists r f) [] = nth p (dec_lists r' f') [].
Proof. intros Hp E F. unfold dec_lists. do 4 (destruct p as [|p]; [cbn [seq map nth]; now rewrite E, F|]). lia. Qed.

Lemma like_step L n p s t a b s' t' : (p < 4)%nat -> wf s -> wf t -> seated a -> seated b ->
  seen (Z.of_nat p) (s_acquired s) a = seen (Z.of_nat p) (s_acquired t) b -> like p s t ->
  astep L n s a = Ok s' -> astep L n t b = Ok t' -> like p s' t'.
Proof.
  intros Hp Ws Wt Sa Sb Se [A H T O] E1 E2.
  pose proof (alike_apply p s t a b Hp Ws Wt Sa Se A) as Aa.
  pose proof (astep_apply _ _ _ _ _ Ws Sa E1) as [_ Q1]. pose proof (astep_apply _ _ _ _ _ Wt Sb E2) as [_ Q2].
  assert (A' : alike p s' t') by (eapply alike_strip; [symmetry; exact Q1|symmetry; exact Q2|exact Aa]).
  destruct (ap_frame a s) as (F1 & F2 & _ & F4). destruct (ap_frame b t) as (G1 & G2 & _ & G4).
  pose proof (wf_apply a s Ws) as Wa. pose proof (wf_apply b t Wt) as Wb.
  pose proof (seen_inj _ _ _ _ _ Se) as Si. clear Q1 Q2 Se.
  destruct a as [w x|w x|w c|w|w|x]; cbn [astep seated] in *.
  - destruct Si as (x' & -> & Ex). cbn [astep seated] in *. assert (Ew : w = Z.of_nat (Z.to_nat w)) by lia.
    apply draw_inv in E1 as (_ & ag & re & ank & kak & D1 & D2 & D3 & D4 & ->); [|lia|exact Ws].
    apply draw_inv in E2 as (_ & ag' & re' & ank' & kak' & D1' & D2' & D3' & D4' & ->); [|lia|exact Wt].
    rewrite <- Ew in *.
    assert (Ad : alike p (at_draw (Z.to_nat w) x s) (at_draw (Z.to_nat w) x' t)).
    { unfold at_draw. rewrite <- Ew, (al_ippatsu _ _ _ A). now apply alike_ippatsu. }
    assert (C : capture n (Z.to_nat w) (at_draw (Z.to_nat w) x s) = capture n (Z.to_nat w) (at_draw (Z.to_nat w) x' t)) by now apply (capture_like _ _ p).
    constructor; [exact A'| | |].
    + revert F1 G1. generalize (apply (PlDraw w x) s) (apply (PlDraw w x') t). intros sa ta F1 G1.
      change (Forall2 (half_like p) (DuringTurn w (capture n (Z.to_nat w) (at_draw (Z.to_nat w) x s)) [ag; re; ank ++ kak] (ntokens s) :: s_half sa)
        (DuringTurn w (capture n (Z.to_nat w) (at_draw (Z.to_nat w) x' t)) [ag'; re'; ank' ++ kak'] (ntokens t) :: s_half ta)).
      rewrite F1, G1. constructor; [|exact H]. cbn [half_like]. split; [reflexivity|]. split; [exact C|]. split; [now apply ntokens_like|].
      intros Ep. pose proof (Ex Ep) as ->. subst w. rewrite Nat2Z.id in *.
      assert (D1x : Ok ag = Ok ag').
      { rewrite <- D1, <- D1'. rewrite (args_like _ _ _ _ Ad), (al_rtsumo _ _ _ Ad), (al_cycles _ _ _ Ad), (al_menzen _ _ _ Ad).
        apply tsumo_depends_only_on_own_seat; try reflexivity; [exact (al_htf _ _ _ Ad)|]. unfold row. now rewrite (al_melds _ _ _ Ad). }
      assert (D2x : Ok re = Ok re').
      { rewrite <- D2, <- D2'. unfold reach_candidates. now rewrite (al_reaches _ _ _ Ad), (al_menzen _ _ _ Ad), (al_ht _ _ _ Ad). }
      rewrite (al_ht _ _ _ Ad) in D3. rewrite (al_hands _ _ _ Ad), (al_melds _ _ _ Ad) in D4. congruence.
    + revert F2 G2. generalize (apply (PlDraw w x) s) (apply (PlDraw w x') t). intros sa ta F2 G2. change (s_tokens sa = s_tokens ta). congruence.
    + change (Some (capture n (Z.to_nat w) (at_draw (Z.to_nat w) x s)) = Some (capture n (Z.to_nat w) (at_draw (Z.to_nat w) x' t))). now rewrite C.
  - destruct Si as (-> & Ex). cbn [astep seated] in *. assert (Ew : w = Z.of_nat (Z.to_nat w)) by lia.
    apply discard_inv in E1 as (_ & so & acq & tok & rons & nakis & D1 & D2 & D3 & D4 & D5 & _ & ->); [|lia|exact Ws].
    apply discard_inv in E2 as (_ & so' & acq' & tok' & rons' & nakis' & D1' & D2' & D3' & D4' & D5' & _ & ->); [|lia|exact Wt].
    rewrite <- Ew in *. rewrite D2, D2' in Ex. rewrite Ex in D3. rewrite D3 in D3'. apply Ok_inj in D3'. subst tok'.
    assert (so' = so) by congruence. subst so'.
    assert (R : nth p rons None = nth p rons' None).
    { rewrite (al_rtsumo _ _ _ A), (al_cycles _ _ _ A), (al_menzen _ _ _ A) in D4. pose proof (args_like n _ _ _ A) as Ar. rewrite Ar in D4.
      eapply ron_depends_only_on_own_seat; [exact Hp|exact D4|exact D4'|..]; try reflexivity.
      - exact (al_htf _ _ _ Aa).
      - now rewrite (al_melds _ _ _ A).
      - now rewrite (al_sute _ _ _ Aa). }
    assert (N : nth p nakis [] = nth p nakis' []).
    { destruct Wa as (_ & _ & L1 & _). destruct Wb as (_ & _ & L2 & _). exact (mask_like _ _ _ _ _ _ _ _ Hp L1 L2 D5 D5' (al_ht _ _ _ Aa)). }
    constructor; [exact A'| | |].
    + revert F1 G1. generalize (apply (PlDiscard w x) s) (apply (PlDiscard w x) t). intros sa ta F1 G1. cbn [s_half add_token set_tokens set_cur add_half set_half].
      rewrite F1, G1. constructor; [|constructor; [|exact H]]; cbn [half_like]; rewrite (ntokens_like _ _ T); repeat split.
      apply dec_like; [exact Hp|exact R|]. now rewrite N.
    + revert F2 G2. generalize (apply (PlDiscard w x) s) (apply (PlDiscard w x) t). intros sa ta F2 G2. cbn [s_tokens add_token set_tokens set_cur add_half set_half]. congruence.
    + revert F4 G4. generalize (apply (PlDiscard w x) s) (apply (PlDiscard w x) t). intros sa ta F4 G4. cbn [s_sobj add_token set_tokens set_cur add_half set_half]. congruence.
  - subst b. cbn [astep] in *. apply bind_ok in E1 as (u1 & _ & E1). apply bind_ok in E2 as (u2 & _ & E2).
    apply bind_ok in E1 as (nk & M & E1). apply bind_ok in E2 as (nk' & M' & E2). rewrite M in M'. apply Ok_inj in M'. subst nk'.
    apply (call_inv L n s w c nk s' Ws M) in E1 as (_ & tok & K1 & E1). apply (call_inv L n t w c nk t' Wt M) in E2 as (_ & tok' & K2 & E2).
    rewrite K1 in K2. apply Ok_inj in K2. subst tok'. cbv zeta in E1, E2. destruct E1 as (hs & Es & E1). destruct E2 as (hs' & Et & E2).
    set (dn := if is_ankan c || is_kakan c then _ else _) in E1. set (dn' := if is_ankan c || is_kakan c then _ else _) in E2.
    assert (D : Forall2 (half_like p) dn dn').
    { unfold dn, dn'. destruct (_ || _); [now apply upd_during_like|]. now apply (upd_post_like p (fun l => upd l DECISION_NAKI_IDX (exec_match (nk_conv nk)))). }
    assert (C : capture n (Z.to_nat w) (at_call w c s) = capture n (Z.to_nat w) (at_call w c t)).
    { apply (capture_like _ _ p). unfold at_call. rewrite (al_ippatsu _ _ _ A). now apply alike_ippatsu. }
    assert (Hh : Forall2 (half_like p) hs hs').
    { destruct (is_kakan c).
      - destruct E1 as (rons & R1 & _ & ->). destruct E2 as (rons' & R2 & _ & ->). constructor; [|exact D]. cbn [half_like].
        split; [reflexivity|]. split; [exact C|]. split; [now rewrite (ntokens_like _ _ T)|]. apply dec_like; [exact Hp| |reflexivity].
        rewrite (args_like n _ _ _ Aa) in R1. eapply ron_depends_only_on_own_seat; [exact Hp|exact R1|exact R2|..]; try reflexivity.
        + exact (al_htf _ _ _ Aa).
        + now rewrite (al_melds _ _ _ Aa).
        + now rewrite (al_sute _ _ _ Aa).
      - subst hs hs'. exact D. }
    constructor; [exact A'| | |]; rewrite Es, Et.
    + exact Hh.
    + revert F2 G2. generalize (apply (PlCall w c) s) (apply (PlCall w c) t). intros sa ta F2 G2. cbn [s_tokens add_token set_tokens set_cur set_sobj set_half]. congruence.
    + change (Some (capture n (Z.to_nat w) (at_call w c s)) = Some (capture n (Z.to_nat w) (at_call w c t))). now rewrite C.
  - subst b. cbn [astep] in *. apply bind_ok in E1 as (u1 & _ & E1). apply bind_ok in E2 as (u2 & _ & E2).
    apply reach1_inv in E1 as (_ & ->); [|exact Ws]. apply reach1_inv in E2 as (_ & ->); [|exact Wt].
    constructor; [exact A'| | |].
    + now apply upd_during_like.
    + revert F2 G2. generalize (apply (PlReach1 w) s) (apply (PlReach1 w) t). intros sa ta F2 G2. cbn [s_tokens set_half]. congruence.
    + revert F4 G4. generalize (apply (PlReach1 w) s) (apply (PlReach1 w) t). intros sa ta F4 G4. cbn [s_sobj set_half]. congruence.
  - subst b. cbn [astep] in *. apply bind_ok in E1 as (u1 & _ & E1). apply bind_ok in E2 as (u2 & _ & E2).
    apply reach2_inv in E1 as (_ & tok & K1 & ->); [|exact Ws]. apply reach2_inv in E2 as (_ & tok' & K2 & ->); [|exact Wt].
    rewrite K1 in K2. apply Ok_inj in K2. subst tok'.
    revert A' F1 G1 F2 G2 F4 G4. generalize (apply (PlReach2 w) s) (apply (PlReach2 w) t). intros sa ta A' F1 G1 F2 G2 F4 G4.
    constructor; [exact A'| | |]; cbn [s_half s_tokens s_sobj add_token set_tokens]; congruence.
  - subst b. cbn [astep] in *.
    apply dora_inv in E1 as (_ & tok & K1 & ->). apply dora_inv in E2 as (_ & tok' & K2 & ->).
    rewrite K1 in K2. apply Ok_inj in K2. subst tok'.
    revert A' F1 G1 F2 G2 F4 G4. generalize (apply (PlDora x) s) (apply (PlDora x) t). intros sa ta A' F1 G1 F2 G2 F4 G4.
    constructor; [exact A'| | |]; cbn [s_half s_tokens s_sobj add_token set_tokens]; congruence.
Qed.

(** ** Rounds *)
Lemma vec_ext m (l l' : list Z) : List.length l = m -> List.length l' = m -> (forall k, (k < m)%nat -> vget l k = vget l' k) -> l = l'.
Proof. intros E E' H. apply (nth_ext _ _ 0 0); [congruence|]. intros k Hk. apply H. lia. Qed.
Lemma row_len m k (l : list (list Z)) p : List.length l = m -> Forall (fun r => List.length r = k) l -> (p < m)%nat -> List.length (row l p) = k.
Proof. intros E F H. rewrite Forall_forall in F. apply F. unfold row. apply nth_In. lia. Qed.

Lemma init_like go p e e' n n' s s' : (p < 4)%nat -> same_deal (Z.of_nat p) e e' ->
  init_round go e = Ok (n, s) -> init_round go e' = Ok (n', s') -> n = n' /\ like p s s'.
Proof.
  intros Hp D E1 E2. pose proof (init_inited _ _ _ _ E1) as [W1 D1 V1 _ U1 C1 K1 R1 _]. pose proof (init_inited _ _ _ _ E2) as [W2 D2 V2 _ U2 C2 K2 R2 _].
  unfold same_deal in D. rewrite Nat2Z.id in D. inversion D as [|? ? Q1 D' ]; subst. inversion D' as [|? ? Q2 D'']; subst.
  inversion D'' as [|? ? Q3 D3]; subst. inversion D3 as [|? ? Q4 _]; subst. clear D D' D'' D3.
  assert (Ed : dealt e p = dealt e' p) by (unfold dealt; now rewrite Q4).
  assert (Es : seed_of e = seed_of e') by (unfold seed_of; now rewrite Q3).
  assert (X : n = n' /\ s_doras s = s_doras s').
  { clear - E1 E2 Q1 Q2 Q3. unfold init_round in E1, E2.
    apply bind_ok in E1 as (u1 & _ & E1). apply bind_ok in E1 as (ten & Eten & E1). apply bind_ok in E1 as (scores & Esc & E1).
    apply bind_ok in E1 as (oya & Eo & E1). apply bind_ok in E1 as (parent & Ep & E1). apply bind_ok in E1 as (pi & Epi & E1).
    apply bind_ok in E1 as (seed & Eseed & E1). apply bind_ok in E1 as (sd & Esd & E1).
    apply bind_ok in E2 as (u1' & _ & E2). rewrite <- Q1, Eten in E2. cbn [bind] in E2. rewrite Esc in E2. cbn [bind] in E2.
    rewrite <- Q2, Eo in E2. cbn [bind] in E2. rewrite Ep in E2. cbn [bind] in E2. rewrite Epi in E2. cbn [bind] in E2.
    rewrite <- Q3, Eseed in E2. cbn [bind] in E2. rewrite Esd in E2. cbn [bind] in E2.
    destruct sd as [|c0 [|honba [|kyo [|d1 [|d2 [|dora [|]]]]]]]; try discriminate E1.
    apply bind_ok in E1 as (his & _ & E1). apply bind_ok in E1 as ([[hts povs] rem] & _ & E1).
    apply bind_ok in E1 as (di & _ & E1). apply bind_ok in E1 as (hands & _ & E1).
    apply bind_ok in E1 as (u2 & _ & E1). apply bind_ok in E1 as (u3 & _ & E1). apply bind_ok in E1 as (u4 & _ & E1).
    apply bind_ok in E2 as (his' & _ & E2). apply bind_ok in E2 as ([[hts' povs'] rem'] & _ & E2).
    apply bind_ok in E2 as (di' & _ & E2). apply bind_ok in E2 as (hands' & _ & E2).
    apply bind_ok in E2 as (u2' & _ & E2). apply bind_ok in E2 as (u3' & _ & E2). apply bind_ok in E2 as (u4' & _ & E2).
    apply Ok_inj in E1, E2. apply pair_equal_spec in E1, E2. destruct E1 as [<- <-]. destruct E2 as [<- <-]. split; reflexivity. }
  destruct X as [X1 X2]. split; [exact X1|].
  destruct W1 as (A1 & A2 & A3 & A4 & A5 & A6 & _ & A7 & A8 & A9 & A10 & _). destruct W2 as (B1 & B2 & B3 & B4 & B5 & B6 & _ & B7 & B8 & B9 & B10 & _).
  destruct R1 as (R1 & R2' & R3 & R4 & R5 & R6 & R7 & R8 & R9 & R10 & R11 & R12). destruct R2 as (T1 & T2 & T3 & T4 & T5 & T6 & T7 & T8 & T9 & T10 & T11 & T12).
  constructor; [|rewrite R11, T11; constructor|congruence|congruence].
  constructor; try congruence.
  - apply (vec_ext 136); [exact (row_len 4 _ _ _ A1 A2 Hp)|exact (row_len 4 _ _ _ B1 B2 Hp)|]. intros k Hk.
    destruct (D1 p Hp) as (_ & _ & _ & _ & _ & H1). destruct (D2 p Hp) as (_ & _ & _ & _ & _ & H2).
    specialize (H1 (Z.of_nat k) ltac:(lia)). specialize (H2 (Z.of_nat k) ltac:(lia)). rewrite <- Ed, Nat2Z.id in *.
    destruct (in_dec Z.eq_dec (Z.of_nat k) (dealt e p)) as [I|I]; [rewrite (proj1 H1 I), (proj1 H2 I)|rewrite (proj2 H1 I), (proj2 H2 I)]; reflexivity.
  - apply (vec_ext 37); [exact (row_len 4 _ _ _ A3 A4 Hp)|exact (row_len 4 _ _ _ B3 B4 Hp)|]. intros k Hk.
    destruct (V1 p k Hp Hk) as (-> & _). destruct (V2 p k Hp Hk) as (-> & _). now rewrite Ed.
  - apply (vec_ext 37); [exact (row_len 4 _ _ _ A5 A6 Hp)|exact (row_len 4 _ _ _ B5 B6 Hp)|]. intros k Hk.
    destruct (V1 p k Hp Hk) as (_ & -> & _). destruct (V2 p k Hp Hk) as (_ & -> & _). now rewrite Ed.
  - apply (vec_ext 37); [exact (row_len 4 _ _ _ A7 A8 Hp)|exact (row_len 4 _ _ _ B7 B8 Hp)|]. intros k Hk.
    destruct (V1 p k Hp Hk) as (_ & _ & ->). destruct (V2 p k Hp Hk) as (_ & _ & ->). unfold first_indicator. now rewrite Ed, Es.
  - apply (nth_ext _ _ [] []); [congruence|]. intros q Hq. rewrite A9 in Hq. apply (vec_ext 37); [exact (row_len 4 _ _ _ A9 A10 Hq)|exact (row_len 4 _ _ _ B9 B10 Hq)|].
    intros k _. specialize (U1 q k). specialize (U2 q k). unfold row in *. congruence.
  - rewrite C1, C2. unfold initial_scores. now rewrite Q1.
  - rewrite K1, K2. unfold initial_sticks. now rewrite Es.
Qed.

Lemma runs_like L go p e e' evs evs' n n' s s' pls pls' : (p < 4)%nat -> runs L go e evs n s pls -> runs L go e' evs' n' s' pls' ->
  same_deal (Z.of_nat p) e e' -> sights (Z.of_nat p) None pls = sights (Z.of_nat p) None pls' -> n = n' /\ like p s s'.
Proof.
  intros Hp R R' D Sg. apply runs_plays in R as (s0 & I & E0 & Sp & E). apply runs_plays in R' as (t0 & I' & E0' & Sp' & E').
  destruct (init_like _ _ _ _ _ _ _ _ Hp D E0 E0') as [<- Lk]. split; [reflexivity|].
  assert (Q : s_acquired s0 = None /\ s_acquired t0 = None) by (destruct (in_rest _ _ I) as (_ & _ & _ & _ & _ & _ & _ & _ & A & _); destruct (in_rest _ _ I') as (_ & _ & _ & _ & _ & _ & _ & _ & A' & _); auto).
  destruct Q as [Q Q']. rewrite <- Q in Sg at 1. rewrite <- Q' in Sg. clear Q Q'.
  apply in_wf in I, I'. clear E0 E0' D. revert pls' s0 t0 I I' Sp Sp' E E' Lk Sg.
  induction pls as [|a pls IH]; intros [|b pls'] s0 t0 W W' Sp Sp' E E' Lk Sg; rewrite ?sights_cons in Sg; try discriminate Sg.
  - cbn in E, E'. congruence.
  - injection Sg as Sa Sg. cbn in E, E'. apply bind_ok in E as (s1 & E1 & E). apply bind_ok in E' as (t1 & E1' & E').
    inversion Sp as [|? ? Pa Sp1]; subst. inversion Sp' as [|? ? Pb Sp1']; subst.
    pose proof (like_step _ _ _ _ _ _ _ _ _ Hp W W' Pa Pb Sa Lk E1 E1') as Lk1.
    apply (IH pls' s1 t1); auto; [exact (astep_wf _ _ _ _ _ W Pa E1)|exact (astep_wf _ _ _ _ _ W' Pb E1')|].
    apply astep_apply in E1 as [_ E1]; auto. apply astep_apply in E1' as [_ E1']; auto.
    apply strip_fields in E1 as (_ & _ & _ & _ & _ & _ & _ & _ & _ & _ & _ & _ & _ & _ & _ & _ & ->).
    apply strip_fields in E1' as (_ & _ & _ & _ & _ & _ & _ & _ & _ & _ & _ & _ & _ & _ & _ & _ & ->). now rewrite !next_acquired.
Qed.

(** ** What is left after the round *)
(** Two half-turns with final variables [s], [t], as recorded. *)
Definition view_like (p : nat) (s t : rstate) (h h' : halfturn sview) : Prop :=
  exists x x', h = map_half (observe s) x /\ h' = map_half (observe t) x' /\ half_like p x x'.

Lemma half_views p s t : Forall2 (half_like p) (s_half s) (s_half t) ->
  Forall2 (view_like p s t) (map (map_half (observe s)) (rev (s_half s))) (map (map_half (observe t)) (rev (s_half t))).
Proof.
  intros F. assert (G : Forall2 (half_like p) (rev (s_half s)) (rev (s_half t))).
  { induction F as [|x y l r Q _ IH]; [constructor|]. cbn [rev]. apply Forall2_app; [exact IH|]. constructor; [exact Q|constructor]. }
  clear F. induction G as [|x y l r Q _ IH]; cbn [map]; constructor; [|exact IH]. exists x, y. auto.
Qed.

Lemma observe_like a p s t o : alike p s t -> so_player o = p -> convert_state a (observe s o) = convert_state a (observe t o) /\
  sv_hand (observe s o) = sv_hand (observe t o).
Proof.
  intros A E. unfold convert_state, observe. cbn [sv_obj sv_hand sv_pov sv_menzen]. rewrite E, (al_ht _ _ _ A), (al_pov _ _ _ A), (al_menzen _ _ _ A). auto.
Qed.

Lemma own_filter {A} (P : sample -> bool) (f : A -> res (list sample)) (R : A -> A -> Prop) l l' d d' :
  (forall h h' x x', R h h' -> f h = Ok x -> f h' = Ok x' -> filter P x = filter P x') ->
  Forall2 R l l' -> mapM f l = Ok d -> mapM f l' = Ok d' -> filter P (List.concat d) = filter P (List.concat d').
Proof.
  intros H F E E'. apply mapM_ok in E, E'. revert d d' E E'. induction F as [|h h' l l' Q _ IH]; intros d d' E E'.
  - inversion E; inversion E'. reflexivity.
  - inversion E as [|? x ? d1 E1 E2]; subst. inversion E' as [|? x' ? d2 E1' E2']; subst. cbn [List.concat]. rewrite !filter_app.
    f_equal; [exact (H _ _ _ _ Q E1 E1')|]. now apply IH.
Qed.

Lemma during_player a padded q v ds i x : during_sample a padded q v ds i = Ok x -> Forall (fun r => r_player r = q) x.
Proof.
  unfold during_sample. destruct (Nat.eqb _ 0); [injection 1 as <-; constructor|]. intros H. apply bind_ok in H as (tr & _ & H).
  apply bind_ok in H as (f & _ & H). apply bind_ok in H as (m & _ & H). apply bind_ok in H as ([m2 y] & _ & H). injection H as <-. constructor; [reflexivity|constructor].
Qed.
Lemma filter_none q p x : Forall (fun r => r_player r = q) x -> q <> p -> filter (fun r => r_player r =? p) x = [].
Proof. intros F N. induction F as [|r x E _ IH]; [reflexivity|]. cbn [filter]. destruct (Z.eqb_spec (r_player r) p); [congruence|exact IH]. Qed.

Definition mine (h : halfturn sview) : Prop := half_player h = Z.of_nat (so_player (sv_obj (state_of h))).

Lemma rows_like a p s t half half' tokens tt tt' : (p < 4)%nat -> alike p s t -> Forall2 (view_like p s t) half half' -> Forall mine half ->
  build_tensors a half tokens = Ok tt -> build_tensors a half' tokens = Ok tt' ->
  filter (fun r => r_player r =? Z.of_nat p) (t_during tt) = filter (fun r => r_player r =? Z.of_nat p) (t_during tt') /\
  filter (fun r => r_player r =? Z.of_nat p) (t_discard tt) = filter (fun r => r_player r =? Z.of_nat p) (t_discard tt').
Proof.
  intros Hp A F M B B'. unfold build_tensors in B, B'.
  apply bind_ok in B as (d1 & E1 & B). apply bind_ok in B as (u1 & _ & B). apply bind_ok in B as (d2 & E2 & B). apply bind_ok in B as (u2 & _ & B).
  apply bind_ok in B as (d3 & _ & B). apply bind_ok in B as (u3 & _ & B). injection B as <-.
  apply bind_ok in B' as (d1' & E1' & B). apply bind_ok in B as (u1' & _ & B). apply bind_ok in B as (d2' & E2' & B). apply bind_ok in B as (u2' & _ & B).
  apply bind_ok in B as (d3' & _ & B). apply bind_ok in B as (u3' & _ & B). injection B as <-. cbn [t_during t_discard].
  assert (F2 : Forall2 (fun h h' => view_like p s t h h' /\ mine h) half half').
  { clear - F M. induction F as [|h h' l l' Q _ IH]; [constructor|]. inversion M; subst. constructor; auto. }
  split.
  - refine (own_filter _ _ _ _ _ _ _ _ F2 E1 E1'). intros h h' x x' ((y & y' & -> & -> & Q) & My) X X'.
    destruct y as [q so ds i|q so ti i|q so ds i], y' as [q' so' ds' i'|q' so' ti' i'|q' so' ds' i']; cbn [half_like map_half] in *; try contradiction; try (injection X as <-; injection X' as <-; reflexivity).
    destruct Q as (<- & <- & <- & Q). destruct (Z.eq_dec q (Z.of_nat p)) as [->|N].
    + rewrite <- (Q eq_refl) in X'. unfold mine in My. cbn [half_player map_half state_of sv_obj observe] in My. destruct (observe_like a p s t so A ltac:(lia)) as [C _].
      unfold during_sample in X, X'. rewrite C in X. congruence.
    + rewrite (filter_none _ _ _ (during_player _ _ _ _ _ _ _ X) N), (filter_none _ _ _ (during_player _ _ _ _ _ _ _ X') N). reflexivity.
  - refine (own_filter _ _ _ _ _ _ _ _ F2 E2 E2'). intros h h' x x' ((y & y' & -> & -> & Q) & My) X X'.
    destruct y as [q so ds i|q so ti i|q so ds i], y' as [q' so' ds' i'|q' so' ti' i'|q' so' ds' i']; cbn [half_like map_half] in *; try contradiction; try (injection X as <-; injection X' as <-; reflexivity).
    destruct Q as (<- & <- & <- & <-). apply bind_ok in X as (r & X & Y). apply bind_ok in X' as (r' & X' & Y'). injection Y as <-. injection Y' as <-.
    destruct (Z.eq_dec q (Z.of_nat p)) as [->|N].
    + unfold mine in My. cbn [half_player map_half state_of sv_obj observe] in My. destruct (observe_like a p s t so A ltac:(lia)) as [C Hh].
      unfold discard_sample in X, X'. rewrite C, Hh in X. congruence.
    + assert (G : forall v i0 r0, discard_sample a (pad_tokens tokens) q v ti i0 = Ok r0 -> Forall (fun z => r_player z = q) [r0]).
      { intros v i0 r0 Z0. unfold discard_sample in Z0. apply bind_ok in Z0 as (? & _ & Z0). apply bind_ok in Z0 as (? & _ & Z0). apply bind_ok in Z0 as (? & _ & Z0).
        injection Z0 as <-. constructor; [reflexivity|constructor]. }
      rewrite (filter_none _ _ _ (G _ _ _ X) N), (filter_none _ _ _ (G _ _ _ X') N). reflexivity.
Qed.

Lemma public_like a p s t h h' : (p < 4)%nat -> alike p s t -> view_like p s t h h' ->
  half_player h = half_player h' /\ index_of h = index_of h' /\ tile_of h = tile_of h' /\ decisions_for h (Z.of_nat p) = decisions_for h' (Z.of_nat p) /\
  forall f f', convert_state a (state_of h) = Ok f -> convert_state a (state_of h') = Ok f' ->
    skipn 2 (f_x1 f) = skipn 2 (f_x1 f') /\ f_x2 f = f_x2 f' /\ f_x3 f = f_x3 f'.
Proof.
  intros Hp A (y & y' & -> & -> & Q).
  assert (C : forall so f f', convert_state a (observe s so) = Ok f -> convert_state a (observe t so) = Ok f' ->
    skipn 2 (f_x1 f) = skipn 2 (f_x1 f') /\ f_x2 f = f_x2 f' /\ f_x3 f = f_x3 f').
  { intros so f f' X X'. unfold convert_state, observe in X, X'. cbn [sv_obj sv_hand sv_pov sv_menzen] in X, X'. rewrite (al_menzen _ _ _ A) in X.
    apply bind_ok in X as (ch & X1 & X). apply bind_ok in X as (u & _ & X). apply bind_ok in X' as (ch' & X1' & X'). apply bind_ok in X' as (u' & _ & X').
    rewrite X1 in X1'. apply Ok_inj in X1'. subst ch'. injection X as <-. injection X' as <-. auto. }
  destruct y as [q so ds i|q so ti i|q so ds i], y' as [q' so' ds' i'|q' so' ti' i'|q' so' ds' i']; cbn [half_like map_half] in *; try contradiction.
  - destruct Q as (<- & <- & <- & Q). do 4 (split; [reflexivity|]). exact (C so).
  - destruct Q as (<- & <- & <- & <-). do 4 (split; [reflexivity|]). exact (C so).
  - destruct Q as (<- & <- & <- & Q). do 3 (split; [reflexivity|]). split; [cbn [decisions_for]; now rewrite Nat2Z.id, Q|exact (C so)].
Qed.
