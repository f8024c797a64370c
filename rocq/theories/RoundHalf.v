(** Tokens, half-turns and state objects recorded by the event loop. *)
From Coq Require Import ZArith List Bool String Ascii Lia PeanoNat Permutation.
From Verif Require Import Base Constants Naki Decision Tokens GameInfo Agari Process VecLemmas
  SpecMeld SpecTokens SpecRound RoundLemmas RoundInv RoundTiles RoundInit RoundBook RoundFlags RoundSplit.
Import ListNotations.
Open Scope Z_scope.

(** ** One step *)
(** The state object a draw or call by [p] builds shows the variables after it,
    but for the ippatsu flags. *)
Definition snapshot (n : renv) (p : nat) (s : rstate) (so : sobj) : Prop :=
  exists ip, so = capture n p (set_ippatsu ip s).

Lemma capture_fields n p s t : strip s = strip t -> capture n p (set_ippatsu (s_ippatsu t) s) = capture n p t.
Proof.
  intros E. apply strip_fields in E as (_ & _ & _ & _ & _ & E1 & E2 & E3 & E4 & E5 & E6 & E7 & _).
  unfold capture, set_ippatsu. cbn [s_rtsumo s_sute s_dreaches s_reaches s_ippatsu s_scores s_kyotaku s_doras].
  now rewrite E1, E2, E3, E4, E5, E6, E7.
Qed.

Lemma snap_strip n p s t so : strip s = strip t -> snapshot n p s so -> snapshot n p t so.
Proof.
  intros E (ip & ->). exists ip. apply strip_fields in E as (_ & _ & _ & _ & _ & E1 & E2 & E3 & E4 & E5 & E6 & E7 & _).
  unfold capture, set_ippatsu. cbn [s_rtsumo s_sute s_dreaches s_reaches s_ippatsu s_scores s_kyotaku s_doras].
  now rewrite E1, E2, E3, E4, E5, E6, E7.
Qed.

Definition marked (a b : list (halfturn sobj)) : Prop :=
  map shape_of a = map shape_of b /\ map state_of a = map state_of b.
Lemma marked_during f l : marked (upd_during f l) l.
Proof. destruct l as [|[| |] l]; split; reflexivity. Qed.
Lemma marked_post f l : marked (upd_post f l) l.
Proof. destruct l as [|[| |] l]; split; reflexivity. Qed.
Lemma marked_refl l : marked l l.
Proof. split; reflexivity. Qed.

Lemma cur_fields b s : s_half (set_cur b s) = s_half s /\ s_tokens (set_cur b s) = s_tokens s /\ s_sobj (set_cur b s) = s_sobj s.
Proof. now destruct s. Qed.

Lemma astep_half L n s a s' : wf s -> seated a -> astep L n s a = Ok s' ->
  match a with
  | PlDraw w t => exists so ds, snapshot n (Z.to_nat w) s' so /\ s_half s' = DuringTurn w so ds (ntokens s) :: s_half s /\
      s_sobj s' = Some so /\ s_tokens s' = s_tokens s
  | PlDiscard w t => exists so ds tok, s_sobj s = Some so /\
      s_half s' = PostTurn w so ds (ntokens s) :: DiscardTurn w so t (ntokens s) :: s_half s /\ s_sobj s' = Some so /\
      s_tokens s' = s_tokens s ++ [tok] /\
      token (EvDiscard w (tid t / 4) (match s_acquired s with Some a => t =? a | None => false end)) = Ok tok
  | PlCall w c => exists so hs tok, snapshot n (Z.to_nat w) s' so /\ marked hs (s_half s) /\
      (if is_kakan c then exists ds, s_half s' = PostTurn w so ds (ntokens s + 1) :: hs else s_half s' = hs) /\
      s_sobj s' = Some so /\ s_tokens s' = s_tokens s ++ [tok] /\ token (EvCall w c) = Ok tok
  | PlReach1 w => marked (s_half s') (s_half s) /\ s_sobj s' = s_sobj s /\ s_tokens s' = s_tokens s
  | PlReach2 w => marked (s_half s') (s_half s) /\ s_sobj s' = s_sobj s /\ exists tok, s_tokens s' = s_tokens s ++ [tok] /\ token (EvRiichi w) = Ok tok
  | PlDora t => marked (s_half s') (s_half s) /\ s_sobj s' = s_sobj s /\ exists tok, s_tokens s' = s_tokens s ++ [tok] /\ token (EvDora (tid t / 4)) = Ok tok
  end.
Proof.
  intros W S H. pose proof (astep_apply _ _ _ _ _ W S H) as [_ Es].
  destruct (ap_frame a s) as (F1 & F2 & F3 & F4).
  assert (HD : forall t, Z.of_nat (hd 0%nat (tix t)) = tid t / 4).
  { intros t. rewrite (proj1 (tix_hd t)). pose proof (tid_range t). rewrite Z2Nat.id; [reflexivity|]. apply Z.div_pos; lia. }
  destruct a as [w t|w t|w c|w|w|t]; cbn [astep seated] in *.
  - assert (Ew : w = Z.of_nat (Z.to_nat w)) by lia. rewrite Ew. rewrite Nat2Z.id.
    apply draw_inv in H as (_ & ag & re & ank & kak & _ & _ & _ & _ & ->); [|lia|exact W].
    rewrite <- Ew in *. exists (capture n (Z.to_nat w) (at_draw (Z.to_nat w) t s)), [ag; re; ank ++ kak].
    split; [|].
    { apply (snap_strip _ _ (apply (PlDraw w t) s)); [symmetry; exact Es|].
      unfold at_draw. rewrite <- Ew. eexists. reflexivity. }
    revert F1 F2. generalize (apply (PlDraw w t) s). intros sa F1 F2. rewrite <- F1, <- F2. clear. now destruct sa.
  - assert (Ew : w = Z.of_nat (Z.to_nat w)) by lia.
    apply discard_inv in H as (_ & so & acq & tok & rons & nakis & Eso & Ea & Et & _ & _ & _ & ->); [|lia|exact W].
    rewrite <- Ew in *. rewrite HD in Et. rewrite Ea.
    exists so. eexists. exists tok. split; [exact Eso|].
    revert F1 F2 F4. generalize (apply (PlDiscard w t) s). intros sa F1 F2 F4. rewrite <- F1, <- F2. rewrite Eso in F4. clear - F4 Et.
    split; [destruct sa; reflexivity|]. split; [destruct sa; exact F4|]. split; [destruct sa; reflexivity|exact Et].
  - apply bind_ok in H as (u & _ & H). apply bind_ok in H as (nk & En & H).
    apply (call_inv L n s w c nk s' W En) in H as (_ & tok & Et & H). cbv zeta in H. destruct H as (hs & E & H).
    set (dn := if is_ankan c || is_kakan c then _ else _) in H.
    exists (capture n (Z.to_nat w) (at_call w c s)), dn, tok.
    split; [|split; [|split; [|split; [|split]]]].
    + apply (snap_strip _ _ (apply (PlCall w c) s)); [symmetry; exact Es|]. eexists. reflexivity.
    + unfold dn. destruct (_ || _); [apply marked_during|apply marked_post].
    + assert (Eh : s_half s' = hs) by (rewrite E; reflexivity). rewrite Eh. clear - H. destruct (is_kakan c).
      * destruct H as (rons & _ & _ & ->). eexists. reflexivity.
      * exact H.
    + rewrite E. reflexivity.
    + rewrite E. revert F2. generalize (apply (PlCall w c) s). intros sa F2. rewrite <- F2. reflexivity.
    + exact Et.
  - apply bind_ok in H as (u & _ & H). apply reach1_inv in H as (_ & ->); [|exact W].
    revert F1 F2 F4. generalize (apply (PlReach1 w) s). intros sa F1 F2 F4. split; [apply marked_during|]. split; [exact F4|exact F2].
  - apply bind_ok in H as (u & _ & H). apply reach2_inv in H as (_ & tok & Et & ->); [|exact W].
    revert F1 F2 F4. generalize (apply (PlReach2 w) s). intros sa F1 F2 F4. rewrite <- F1, <- F2, <- F4. split; [apply marked_refl|].
    split; [reflexivity|]. exists tok. split; [reflexivity|exact Et].
  - apply dora_inv in H as (_ & tok & Et & ->). rewrite HD in Et.
    revert F1 F2 F4. generalize (apply (PlDora t) s). intros sa F1 F2 F4. rewrite <- F1, <- F2, <- F4. split; [apply marked_refl|].
    split; [reflexivity|]. exists tok. split; [reflexivity|exact Et].
Qed.

(** ** Whole rounds *)
Lemma runs_inv_full L go e0 evs n s pls (I : list play -> rstate -> Prop) :
  runs L go e0 evs n s pls ->
  (forall s0, inited e0 s0 -> init_round go e0 = Ok (n, s0) -> I [] s0) ->
  (forall h a s s', wf s -> seated a -> I h s -> guard a s -> astep L n s a = Ok s' -> strip s' = strip (apply a s) -> I (h ++ [a]) s') ->
  I pls s /\ wf s.
Proof.
  intros H I0 Is. apply runs_plays in H as (s0 & In0 & E0 & Sp & E).
  eapply (run_inv_full L n s0 pls s I); eauto using in_wf.
  intros h a s1 s2 W Sa Ih G Ea. eapply Is; eauto. now apply astep_apply in Ea.
Qed.

(** *** Tokens *)
(** The tile the next discarder drew or claimed last. *)
Fixpoint last_acq (last : option Z) (pls : list play) : option Z :=
  match pls with
  | [] => last
  | PlDraw _ t :: r => last_acq (Some t) r
  | PlDiscard _ _ :: r => last_acq None r
  | PlCall _ c :: r => last_acq (if is_minkan c || is_ankan c || is_kakan c then None else hd_error (claimed_by c)) r
  | _ :: r => last_acq last r
  end.
Lemma last_acq_app a b l : last_acq l (a ++ b) = last_acq (last_acq l a) b.
Proof. revert l. induction a as [|[]]; intros; cbn; auto. Qed.
Lemma public_app a b l : public l (a ++ b) = public l a ++ public (last_acq l a) b.
Proof. revert l. induction a as [|[]]; intros; cbn [app public last_acq]; rewrite ?IHa; auto. Qed.

Definition token_inv (h : list play) (s : rstate) : Prop :=
  s_acquired s = last_acq None h /\ Forall2 (fun e tok => token e = Ok tok) (public None h) (s_tokens s).

Lemma token_inv_holds L go e0 evs n s pls : runs L go e0 evs n s pls -> token_inv pls s.
Proof.
  intros R. eapply (runs_inv_full _ _ _ _ _ _ _ token_inv) in R; [exact (proj1 R)| |]; clear.
  - intros s0 In0 _. unfold token_inv. destruct (in_rest _ _ In0) as (_ & _ & _ & _ & _ & _ & _ & _ & -> & _ & _ & ->). split; [reflexivity|constructor].
  - intros h a s s' W S [I1 I2] G E Es. unfold token_inv. rewrite last_acq_app, public_app.
    apply strip_fields in Es as (_ & _ & _ & _ & _ & _ & _ & _ & _ & _ & _ & _ & _ & _ & _ & _ & Ea). rewrite Ea, ap_acquired.
    apply astep_half in E; [|exact W|exact S]. rewrite <- I1.
    destruct a as [w t|w t|w c|w|w|t]; cbn [last_acq public].
    + destruct E as (so & ds & _ & _ & _ & ->). rewrite app_nil_r. auto.
    + destruct E as (so & ds & tok & _ & _ & _ & -> & Et). split; [reflexivity|]. apply Forall2_app; [exact I2|]. constructor; [exact Et|constructor].
    + destruct E as (so & ds & tok & _ & _ & _ & _ & -> & Et). split; [reflexivity|]. apply Forall2_app; [exact I2|]. constructor; [exact Et|constructor].
    + destruct E as (_ & _ & ->). rewrite app_nil_r. auto.
    + destruct E as (_ & _ & tok & -> & Et). split; [reflexivity|]. apply Forall2_app; [exact I2|]. constructor; [exact Et|constructor].
    + destruct E as (_ & _ & tok & -> & Et). split; [reflexivity|]. apply Forall2_app; [exact I2|]. constructor; [exact Et|constructor].
Qed.

(** *** Shapes and indices *)
Definition npub (h : list play) : Z := Z.of_nat (List.length (public None h)).
Lemma public_len l l' h : List.length (public l h) = List.length (public l' h).
Proof. revert l l'. induction h as [|[]]; intros; cbn [public List.length]; auto. Qed.
Lemma shapes_app a b i : shapes i (a ++ b) = shapes i a ++ shapes (i + npub a) b.
Proof.
  unfold npub. revert i. induction a as [|x a IH]; intros i; cbn [app].
  - cbn. now rewrite Z.add_0_r.
  - destruct x; cbn [shapes public List.length]; rewrite ?IH;
    try match goal with |- context[public ?l a] => rewrite (public_len l None a) end;
    rewrite ?Nat2Z.inj_succ, <- ?Z.add_1_r; rewrite ?(Z.add_comm (Z.of_nat _) 1), ?Z.add_assoc; try reflexivity.
    destruct (is_kakan code); reflexivity.
Qed.

Definition half_inv (h : list play) (s : rstate) : Prop :=
  token_inv h s /\ map shape_of (rev (s_half s)) = shapes 0 h.

Lemma token_len h s : token_inv h s -> ntokens s = npub h.
Proof. intros [_ F]. apply Forall2_len in F. unfold ntokens, npub. now rewrite F. Qed.

Lemma half_inv_holds L go e0 evs n s pls : runs L go e0 evs n s pls -> half_inv pls s.
Proof.
  intros R. split; [eapply token_inv_holds; exact R|].
  eapply (runs_inv_full _ _ _ _ _ _ _ (fun h s => ntokens s = npub h /\ map shape_of (rev (s_half s)) = shapes 0 h)) in R;
   [exact (proj2 (proj1 R))| |]; clear.
  - intros s0 In0 _. destruct (in_rest _ _ In0) as (_ & _ & _ & _ & _ & _ & _ & _ & _ & _ & H1 & H2). unfold ntokens. rewrite H1, H2. split; reflexivity.
  - intros h a s s' W S [I1 I2] G E Es. apply astep_half in E; [|exact W|exact S]. rewrite shapes_app.
    unfold npub. rewrite public_app, app_length. fold (npub h).
    assert (NT : forall tok, s_tokens s' = s_tokens s ++ [tok] -> ntokens s' = ntokens s + 1)
      by (intros tok Hk; unfold ntokens; rewrite Hk, app_length; cbn [List.length]; lia).
    assert (MK : forall l, marked l (s_half s) -> map shape_of (rev l) = shapes 0 h)
      by (intros l [M _]; rewrite map_rev, M, <- map_rev; exact I2).
    unfold npub in *.
    destruct a as [w t|w t|w c|w|w|t]; cbn [public shapes].
    + destruct E as (so & ds & _ & -> & _ & Et). cbn [rev List.length]. unfold ntokens in *. rewrite Et. split; [lia|].
      rewrite map_app, I2. cbn [map shape_of]. repeat f_equal. lia.
    + destruct E as (so & ds & tok & _ & -> & _ & Et & _). rewrite (NT _ Et). cbn [rev List.length]. split; [lia|].
      rewrite !map_app, I2, <- app_assoc. cbn [map shape_of app]. repeat f_equal; lia.
    + destruct E as (so & hs & tok & _ & M & Eh & _ & Et & _). rewrite (NT _ Et). cbn [List.length]. split; [lia|].
      destruct (is_kakan c).
      * destruct Eh as (ds & ->). cbn [rev]. rewrite map_app, (MK _ M). cbn [map shape_of]. repeat f_equal. lia.
      * rewrite Eh, (MK _ M), app_nil_r. reflexivity.
    + destruct E as (M & _ & Et). unfold ntokens in *. rewrite Et, (MK _ M), app_nil_r. cbn [List.length]. split; [lia|reflexivity].
    + destruct E as (M & _ & tok & Et & _). rewrite (NT _ Et), (MK _ M), app_nil_r. cbn [List.length]. split; [lia|reflexivity].
    + destruct E as (M & _ & tok & Et & _). rewrite (NT _ Et), (MK _ M), app_nil_r. cbn [List.length]. split; [lia|reflexivity].
Qed.

(** No index exceeds the number of public events so far; indices never decrease. *)
Definition shape_idx (h : shape) : Z := match h with HDuring _ e => e | HDiscard _ _ e => e | HPost _ e => e end.
Lemma shapes_bounds h : forall i, Forall (fun x => i <= shape_idx x <= i + npub h) (shapes i h).
Proof.
  unfold npub. induction h as [|a h IH]; intros i; cbn [shapes]; [constructor|].
  assert (GE : forall l, i <= i + Z.of_nat (List.length (public l h))) by (intros; lia).
  destruct a; cbn [public List.length];
   try match goal with |- context[public ?l h] => rewrite (public_len l None h) end; specialize (GE None).
  1: constructor; [cbn; lia|apply IH].
  1: constructor; [cbn; lia|]; constructor; [cbn; lia|].
  2: destruct (is_kakan code); [constructor; [cbn; lia|]|].
  4: apply IH.
  all: eapply Forall_impl; [|apply IH]; cbv beta; intros x Hx; lia.
Qed.
Fixpoint nondecreasing (l : list Z) : Prop :=
  match l with [] => True | x :: r => Forall (Z.le x) r /\ nondecreasing r end.
Lemma shapes_sorted h : forall i, nondecreasing (map shape_idx (shapes i h)).
Proof.
  induction h as [|a h IH]; intros i; cbn [shapes]; [exact I|].
  assert (LB : forall j, i <= j -> Forall (Z.le i) (map shape_idx (shapes j h))).
  { intros j Hj. apply Forall_map. eapply Forall_impl; [|apply shapes_bounds]. cbv beta. intros; lia. }
  destruct a; cbn [map nondecreasing shape_idx]; auto.
  - split; [apply LB; lia|auto].
  - split; [constructor; [lia|]; apply LB; lia|]. split; [apply LB; lia|auto].
  - destruct (is_kakan code); [|auto]. cbn [map nondecreasing shape_idx]. split; [|auto].
    apply Forall_map. eapply Forall_impl; [|apply shapes_bounds]. cbv beta. intros; lia.
Qed.

(** *** State objects *)
Fixpoint last_mom (i last : nat) (pls : list play) : nat :=
  match pls with
  | [] => last
  | (PlDraw _ _ | PlCall _ _) :: r => last_mom (S i) (S i) r
  | _ :: r => last_mom (S i) last r
  end.
Lemma last_mom_app a b i l : last_mom i l (a ++ b) = last_mom (i + List.length a) (last_mom i l a) b.
Proof. revert i l. induction a as [|[]]; intros; cbn [app last_mom List.length]; rewrite ?Nat.add_0_r, ?IHa; try reflexivity; f_equal; lia. Qed.
Lemma moments_app a b i l : moments i l (a ++ b) = moments i l a ++ moments (i + List.length a) (last_mom i l a) b.
Proof.
  revert i l. induction a as [|x a IH]; intros i l; cbn [app].
  - cbn. now rewrite Nat.add_0_r.
  - destruct x; cbn [moments last_mom List.length]; rewrite ?IH; replace (i + S (List.length a))%nat with (S i + List.length a)%nat by lia; try reflexivity.
    destruct (is_kakan code); reflexivity.
Qed.
Lemma last_mom_le a i l : (l <= i -> last_mom i l a <= i + List.length a)%nat.
Proof. revert i l. induction a as [|[]]; intros i l H; cbn [last_mom List.length]; [lia|..]; specialize (IHa (S i)); match goal with |- (last_mom _ ?x _ <= _)%nat => specialize (IHa x ltac:(lia)) end; lia. Qed.
Lemma moments_le a i l : (l <= i)%nat -> Forall (fun m => m <= i + List.length a)%nat (moments i l a).
Proof.
  revert i l. induction a as [|x a IH]; intros i l H; cbn [moments]; [constructor|].
  assert (Q : forall l', (l' <= S i)%nat -> Forall (fun m => m <= i + List.length (x :: a))%nat (moments (S i) l' a)).
  { intros l' Hl. eapply Forall_impl; [|apply IH; exact Hl]. cbn [List.length]. intros; lia. }
  destruct x; try (apply Q; lia).
  - constructor; [cbn [List.length]; lia|apply Q; lia].
  - do 2 (constructor; [cbn [List.length]; lia|]). apply Q; lia.
  - destruct (is_kakan code); [constructor; [cbn [List.length]; lia|]|]; apply Q; lia.
Qed.

(** The state object [so] shows the variables after the first [m] plays. *)
Definition shows (L : libs) (n : renv) (s0 : rstate) (h : list play) (m : nat) (so : sobj) : Prop :=
  exists s1 p, foldM (astep L n) s0 (firstn m h) = Ok s1 /\ snapshot n p s1 so.

Lemma shows_app L n s0 h a m so : (m <= List.length h)%nat -> shows L n s0 h m so -> shows L n s0 (h ++ [a]) m so.
Proof. intros Hm (s1 & p & E & Q). exists s1, p. rewrite firstn_app. replace (m - List.length h)%nat with 0%nat by lia. cbn [firstn]. now rewrite app_nil_r. Qed.

Lemma foldM_snoc {A S} (f : S -> A -> res S) l a s s1 : foldM f s l = Ok s1 -> foldM f s (l ++ [a]) = f s1 a.
Proof. revert s. induction l as [|x l IH]; cbn; intros s H; [injection H as <-; destruct (f s a); reflexivity|]. apply bind_ok in H as (s2 & E & H). rewrite E. cbn. auto. Qed.

Definition obj_inv (L : libs) (n : renv) (s0 : rstate) (h : list play) (s : rstate) : Prop :=
  foldM (astep L n) s0 h = Ok s /\
  (forall so, s_sobj s = Some so -> shows L n s0 h (last_mom 0 0 h) so) /\
  Forall2 (shows L n s0 h) (moments 0 0 h) (map state_of (rev (s_half s))).

Lemma Forall2_weaken {A B} (P Q : A -> B -> Prop) l r (R : A -> Prop) : Forall R l -> (forall a b, R a -> P a b -> Q a b) -> Forall2 P l r -> Forall2 Q l r.
Proof. intros F H G. induction G; constructor; inversion F; subst; auto. Qed.

Lemma obj_inv_holds L go e0 evs n s pls : runs L go e0 evs n s pls ->
  exists s0, init_round go e0 = Ok (n, s0) /\ obj_inv L n s0 pls s.
Proof.
  intros R. destruct (runs_plays _ _ _ _ _ _ _ R) as (s0 & _ & E0 & _ & _). exists s0. split; [exact E0|].
  eapply (runs_inv_full _ _ _ _ _ _ _ (obj_inv L n s0)) in R; [exact (proj1 R)| |]; clear - E0.
  - intros s1 In0 E1. rewrite E0 in E1. injection E1 as ->. destruct (in_rest _ _ In0) as (_ & _ & _ & _ & _ & _ & _ & _ & _ & H1 & H2 & _).
    split; [reflexivity|]. rewrite H1, H2. split; [discriminate|constructor].
  - intros h a s s' W St (I1 & I2 & I3) G E Es.
    pose proof (foldM_snoc _ _ a _ _ I1) as Ef. rewrite E in Ef.
    split; [exact Ef|]. apply astep_half in E; [|exact W|exact St].
    rewrite last_mom_app, moments_app. cbn [plus].
    assert (OLD : Forall2 (shows L n s0 (h ++ [a])) (moments 0 0 h) (map state_of (rev (s_half s)))).
    { eapply Forall2_weaken; [apply (moments_le h 0 0); lia| |exact I3]. cbv beta. intros m so Hm Q. apply shows_app; [lia|exact Q]. }
    assert (OLDO : forall so, s_sobj s = Some so -> shows L n s0 (h ++ [a]) (last_mom 0 0 h) so).
    { intros so Hso. apply shows_app; [|auto]. pose proof (last_mom_le h 0 0). lia. }
    assert (NEW : forall p so, snapshot n p s' so -> shows L n s0 (h ++ [a]) (S (List.length h)) so).
    { intros p so Q. exists s', p. rewrite firstn_all2 by (rewrite app_length; cbn; lia). auto. }
    assert (MK : forall l, marked l (s_half s) -> map state_of (rev l) = map state_of (rev (s_half s)))
      by (intros l [_ M]; now rewrite !map_rev, M).
    destruct a as [w t|w t|w c|w|w|t]; cbn [last_mom moments].
    + destruct E as (so & ds & Q & -> & -> & _). split; [intros so' Hs; injection Hs as <-; eauto|].
      cbn [rev]. rewrite map_app. apply Forall2_app; [exact OLD|]. constructor; [|constructor]. cbn [state_of]. eauto.
    + destruct E as (so & ds & tok & Q & -> & -> & _). split; [intros so' Hs; injection Hs as <-; eauto|].
      cbn [rev]. rewrite !map_app, <- app_assoc. apply Forall2_app; [exact OLD|]. constructor; [|constructor; [|constructor]]; cbn [state_of]; eauto.
    + destruct E as (so & hs & tok & Q & M & Eh & -> & _). split; [intros so' Hs; injection Hs as <-; eauto|].
      destruct (is_kakan c).
      * destruct Eh as (ds & ->). cbn [rev]. rewrite map_app, (MK _ M). apply Forall2_app; [exact OLD|]. constructor; [|constructor]. cbn [state_of]. eauto.
      * rewrite Eh, (MK _ M), app_nil_r. exact OLD.
    + destruct E as (M & -> & _). rewrite (MK _ M), app_nil_r. auto.
    + destruct E as (M & -> & _). rewrite (MK _ M), app_nil_r. auto.
    + destruct E as (M & -> & _). rewrite (MK _ M), app_nil_r. auto.
Qed.

(** From plays back to events. *)
Lemma runs_firstn L go e0 evs n s pls m : runs L go e0 evs n s pls ->
  exists s1, runs L go e0 (firstn m evs) n s1 (firstn m pls).
Proof.
  intros (s0 & E0 & E & Ep). rewrite <- (firstn_skipn m evs) in E. apply foldM_app in E as (s1 & E1 & _).
  exists s1, s0. split; [exact E0|]. split; [exact E1|]. now rewrite <- !firstn_map, Ep.
Qed.

Lemma recorded_states L go e0 evs n s pls : runs L go e0 evs n s pls ->
  Forall2 (fun m h => exists s1 p, runs L go e0 (firstn m evs) n s1 (firstn m pls) /\ snapshot n p s1 (state_of h))
    (moments 0 0 pls) (rev (s_half s)).
Proof.
  intros R. destruct (obj_inv_holds _ _ _ _ _ _ _ R) as (s0 & E0 & _ & _ & F).
  assert (F2 : Forall2 (fun m h => shows L n s0 pls m (state_of h)) (moments 0 0 pls) (rev (s_half s))).
  { revert F. generalize (rev (s_half s)) (moments 0 0 pls). clear. intros l m F. remember (map state_of l) as l' eqn:El. revert l El.
    induction F as [|a b m l' H _ IH]; intros [|x l] El; try discriminate; constructor; cbn in El; injection El as -> El; auto. }
  eapply Forall2_weaken; [apply Forall_forall; intros; exact I| |exact F2]. cbv beta. intros m h _ (s1 & p & E & Q).
  destruct (runs_firstn _ _ _ _ _ _ _ m R) as (s2 & R2). exists s2, p. split; [exact R2|].
  apply runs_plays in R2 as (s0' & _ & E0' & _ & E2). rewrite E0 in E0'. injection E0' as <-. rewrite E in E2. injection E2 as ->. exact Q.
Qed.
