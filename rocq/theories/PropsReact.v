(** C99: what the networks can tell about reactions to one tile, and C51 carried through
    the whole network. *)
From Coq Require Import ZArith List Bool Reals String Lia PeanoNat.
From Verif Require Import Base Constants Naki Process SpecRound SpecTokens SpecEncoder RoundLemmas VecLemmas TokensLemmas RoundExamples Tensor SpecTensor TensorLemmas TensorRound PropsTensor
  Encoder EncoderLemmas EncoderSum EncoderSumLemmas Network NetworkLemmas SpecNetwork NetworkForward NetworkProbe NetworkSeat NetworkRound PropsEncoder PropsNetwork.
Import ListNotations.
Open Scope Z_scope.

Lemma encode_row_player a p q toks : a <> ORDERED -> encode_row a p toks = encode_row a q toks.
Proof. intros N. unfold encode_row. now destruct a. Qed.

(** Two samples with the same encoder rows and the same state get the same score for every
    action both may take. *)
Lemma same_scores a net h l1 l2 n1 n2 r1 r2 x1 loss1 x2 loss2 k : evaluation net -> Forall (fits a h) l1 -> Forall (fits a h) l2 ->
  nth_error l1 n1 = Some r1 -> nth_error l2 n2 = Some r2 ->
  encode_row a (r_player r2) (r_tokens r2) = encode_row a (r_player r1) (r_tokens r1) -> r_state r2 = r_state r1 ->
  forward a net h l1 = Ok (x1, loss1) -> forward a net h l2 = Ok (x2, loss2) ->
  nth k (r_mask r1) 0 = 1 -> nth k (r_mask r2) 0 = 1 -> at_ x1 [n1; k] = at_ x2 [n2; k].
Proof.
  intros Ev F1 F2 I1 I2 Er Es E1 E2 M1 M2.
  destruct (forward_same a h net l1 l2 n1 n2 r1 r2 (agree_evaluation _ _ _ Ev) F1 F2 I1 I2 Er Es) as (raw1 & raw2 & o1 & o2 & _ & G1 & G2 & (_ & A1 & _) & (_ & A2 & _) & Ar).
  rewrite E1 in G1. rewrite E2 in G2. injection G1 as <-. injection G2 as <-. cbn [fst] in A1, A2.
  rewrite A1, A2. unfold mask_at. rewrite I1, I2, M1, M2, Ar. reflexivity.
Qed.

(** ** C99 *)
(** The samples of different players who may react to the same tile are scored alike: in the
    first three agents every action that two of them may take gets the same score for both,
    whatever the weights and whatever else is in the batches (evaluation mode). *)
Theorem C99_scored_alike : forall a L go e0 rest half tokens t, a <> ORDERED ->
  process_round L go (e0 :: rest) = Ok (half, tokens) -> build_tensors a half tokens = Ok t ->
  exists rows, t_post t = List.concat rows /\
  Forall2 (fun h rs => map r_player rs = asked h /\
    forall r1 r2, In r1 rs -> In r2 rs -> forall net l1 l2 n1 n2 x1 loss1 x2 loss2 k, evaluation net ->
      Forall (fits a Post) l1 -> Forall (fits a Post) l2 -> nth_error l1 n1 = Some r1 -> nth_error l2 n2 = Some r2 ->
      forward a net Post l1 = Ok (x1, loss1) -> forward a net Post l2 = Ok (x2, loss2) ->
      nth k (r_mask r1) 0 = 1 -> nth k (r_mask r2) 0 = 1 -> at_ x1 [n1; k] = at_ x2 [n2; k]) (reactions half) rows.
Proof.
  intros a L go e0 rest half tokens t Na H B. destruct (C44_accepted _ _ _ _ _ H) as (W & I).
  destruct (build_ok _ _ _ _ B W I) as (_ & _ & rows & E & D). exists rows. split; [exact E|].
  eapply Forall2_impl; [|exact D]. intros h rs (p & v & ds & i & tr & f & -> & _ & _ & C & F).
  assert (Q : Forall (fun r => r_tokens r = tr /\ r_state r = f) rs).
  { clear - F. induction F as [|q r l l' Hr _ IH]; constructor; [|exact IH]. destruct Hr as (A & B & _). auto. }
  split.
  - clear - F. induction F as [|q r l l' Hr _ IH]; [reflexivity|]. cbn [map]. rewrite IH. f_equal. destruct Hr as (_ & _ & A & _). exact A.
  - rewrite Forall_forall in Q. intros r1 r2 J1 J2 net l1 l2 n1 n2 x1 loss1 x2 loss2 k Ev F1 F2 N1 N2 E1 E2 M1 M2.
    destruct (Q _ J1) as [A1 B1]. destruct (Q _ J2) as [A2 B2].
    eapply (same_scores a net Post l1 l2 n1 n2 r1 r2); eauto; [|congruence]. rewrite A1, A2. now apply encode_row_player.
Qed.
Print Assumptions C99_scored_alike.

Lemma mapM_ext_in {A B} (f g : A -> res B) l : (forall x, In x l -> f x = g x) -> mapM f l = mapM g l.
Proof. induction l as [|x l IH]; intros H; [reflexivity|]. cbn [mapM]. rewrite (H x (or_introl eq_refl)), IH by (intros y Y; apply H; now right). reflexivity. Qed.
Lemma padding_row a p q : encode_row a p (repeat PAD_ID 150) = encode_row a q (repeat PAD_ID 150).
Proof. unfold encode_row. apply mapM_ext_in. intros [j t] I. apply combine_seq_in in I as [Hj I]. apply repeat_spec in I. subst t. cbn [fst snd].
  rewrite repeat_length in Hj. assert (Hj' : (j < 150)%nat) by lia. destruct a; try reflexivity.
  destruct (encode_token_total ORDERED p j PAD_ID Hj') as [[_ ->]|[Q _]]; [|cbn in Q; lia].
  destruct (encode_token_total ORDERED q j PAD_ID Hj') as [[_ ->]|[Q _]]; [|cbn in Q; lia]. reflexivity.
Qed.

(** In all four agents this holds while nothing has been recorded before the tile, as on the
    first discard of a round (the tile itself is not part of the history). *)
Theorem C99_first_alike : forall a L go e0 rest half tokens t,
  process_round L go (e0 :: rest) = Ok (half, tokens) -> build_tensors a half tokens = Ok t ->
  exists rows, t_post t = List.concat rows /\
  Forall2 (fun h rs => map r_player rs = asked h /\
    forall r1 r2, In r1 rs -> In r2 rs -> Forall (fun x => x = PAD_ID) (r_tokens r1) -> forall net l1 l2 n1 n2 x1 loss1 x2 loss2 k, evaluation net ->
      Forall (fits a Post) l1 -> Forall (fits a Post) l2 -> nth_error l1 n1 = Some r1 -> nth_error l2 n2 = Some r2 ->
      forward a net Post l1 = Ok (x1, loss1) -> forward a net Post l2 = Ok (x2, loss2) ->
      nth k (r_mask r1) 0 = 1 -> nth k (r_mask r2) 0 = 1 -> at_ x1 [n1; k] = at_ x2 [n2; k]) (reactions half) rows.
Proof.
  intros a L go e0 rest half tokens t H B. destruct (C44_accepted _ _ _ _ _ H) as (W & I).
  destruct (build_ok _ _ _ _ B W I) as (_ & _ & rows & E & D). exists rows. split; [exact E|].
  eapply Forall2_impl; [|exact D]. intros h rs (p & v & ds & i & tr & f & -> & Tr & _ & C & F).
  assert (Q : Forall (fun r => r_tokens r = tr /\ r_state r = f) rs).
  { clear - F. induction F as [|q r l l' Hr _ IH]; constructor; [|exact IH]. destruct Hr as (A & B & _). auto. }
  split.
  - clear - F. induction F as [|q r l l' Hr _ IH]; [reflexivity|]. cbn [map]. rewrite IH. f_equal. destruct Hr as (_ & _ & A & _). exact A.
  - rewrite Forall_forall in Q. intros r1 r2 J1 J2 Pd net l1 l2 n1 n2 x1 loss1 x2 loss2 k Ev F1 F2 N1 N2 E1 E2 M1 M2.
    destruct (Q _ J1) as [A1 B1]. destruct (Q _ J2) as [A2 B2].
    eapply (same_scores a net Post l1 l2 n1 n2 r1 r2); eauto; [|congruence]. rewrite A1, A2. rewrite A1 in Pd.
    assert (R : tr = repeat PAD_ID 150). { destruct Tr as [Ln _]. rewrite <- Ln. clear - Pd. induction Pd as [|x l -> _ IH]; cbn; congruence. }
    rewrite R. apply padding_row.
Qed.
Print Assumptions C99_first_alike.

(** All four agents score passing and winning alike for two players who may both win on the
    first discard; here is a recorded round in which two may. *)
Theorem C99_refuted : forall a,
  exists r1 r2, from_round a Post r1 /\ from_round a Post r2 /\ r_player r1 <> r_player r2 /\
  (forall k, 0 <= k <= 1 -> allowed_by r1 k /\ allowed_by r2 k) /\
  forall net l1 l2 n1 n2 x1 loss1 x2 loss2 k, evaluation net ->
    Forall (fits a Post) l1 -> Forall (fits a Post) l2 -> nth_error l1 n1 = Some r1 -> nth_error l2 n2 = Some r2 ->
    forward a net Post l1 = Ok (x1, loss1) -> forward a net Post l2 = Ok (x2, loss2) -> (k <= 1)%nat -> at_ x1 [n1; k] = at_ x2 [n2; k].
Proof.
  intros a.
  destruct (sample_round_ok all_wins a real_round (fun h _ t => match reactions h, t_post t with
    | x :: _, r1 :: r2 :: _ => (2 <=? Z.of_nat (List.length (asked x))) && negb (r_player r1 =? r_player r2) &&
        ((nth 0 (r_mask r1) 0 =? 1) && (nth 1 (r_mask r1) 0 =? 1) && (nth 0 (r_mask r2) 0 =? 1) && (nth 1 (r_mask r2) 0 =? 1)) && forallb (Z.eqb PAD_ID) (r_tokens r1)
    | _, _ => false end)) as (h & tk & t & E1 & E2 & E3); [destruct a; vm_compute; reflexivity|].
  destruct (reactions h) as [|x rh] eqn:Eh; [discriminate E3|]. destruct (t_post t) as [|r1 [|r2 l]] eqn:Et; try discriminate E3.
  apply andb_prop in E3 as [E3 Pd]. apply andb_prop in E3 as [E3 E6]. apply andb_prop in E3 as [E4 E5]. apply Z.leb_le in E4. apply negb_true_iff, Z.eqb_neq in E5.
  apply andb_prop in E6 as [E6 M22]. apply andb_prop in E6 as [E6 M21]. apply andb_prop in E6 as [M11 M12]. apply Z.eqb_eq in M11, M12, M21, M22.
  assert (Pd' : Forall (fun x => x = PAD_ID) (r_tokens r1)).
  { apply Forall_forall. intros y Hy. rewrite forallb_forall in Pd. specialize (Pd y Hy). apply Z.eqb_eq in Pd. now symmetry. }
  assert (Er : exists e0 rest, real_round = e0 :: rest) by (eexists _, _; reflexivity). destruct Er as (e0 & rest & Er). rewrite Er in E1.
  destruct (C99_first_alike _ _ _ _ _ _ _ _ E1 E2) as (rows & Ec & F). rewrite Eh in F. inversion F as [|? rs ? rows' [Hl Hs] _]; subst.
  rewrite Et in Ec. cbn [List.concat] in Ec. apply (f_equal (@List.length Z)) in Hl. rewrite map_length in Hl. rewrite <- Hl in E4.
  destruct rs as [|s1 [|s2 rs]]; cbn [List.length] in E4; try lia. cbn [app] in Ec. injection Ec as <- <- _.
  exists r1, r2.
  assert (G : forall r, In r [r1; r2] -> from_round a Post r).
  { intros r Hr. exists all_wins, 169, (e0 :: rest), h, tk, t. split; [exact E1|]. split; [exact E2|]. cbn [rows_of]. rewrite Et. cbn [In] in Hr |- *. tauto. }
  split; [apply G; cbn; tauto|]. split; [apply G; cbn; tauto|]. split; [exact E5|]. split.
  - intros k Hk. assert (K : k = 0 \/ k = 1) by lia. unfold allowed_by. destruct K as [-> | ->]; (split; (split; [lia|]); assumption).
  - intros net l1 l2 n1 n2 x1 loss1 x2 loss2 k Ev F1 F2 N1 N2 G1 G2 Hk.
    apply (Hs r1 r2 (or_introl eq_refl) (or_intror (or_introl eq_refl)) Pd' net l1 l2 n1 n2 x1 loss1 x2 loss2 k Ev F1 F2 N1 N2 G1 G2); destruct k as [|[|k]]; try lia; assumption.
Qed.
Print Assumptions C99_refuted.

(** The ordered agent can tell two players apart as soon as the recorded discards, calls and
    riichi are unequally shared between two players who sit opposite each other: some
    weights give every action both may take different scores, in all batches.  Missing for
    an exact rule: histories which are not empty but balanced in this way. *)
Theorem C99_ordered_partial : forall h evs toks r1 r2, Forall legal_event evs -> mapM token evs = Ok toks -> (List.length evs <= 150)%nat ->
  r_tokens r1 = toks ++ repeat PAD_ID (150 - List.length toks) -> r_tokens r2 = toks ++ repeat PAD_ID (150 - List.length toks) ->
  0 <= r_player r1 < 4 -> 0 <= r_player r2 < 4 -> r_player r1 <> r_player r2 ->
  deeds evs 0 <> deeds evs 2 \/ deeds evs 1 <> deeds evs 3 ->
  exists net, evaluation net /\ forall l1 l2 n1 n2 x1 loss1 x2 loss2 k,
    Forall (fits ORDERED h) l1 -> Forall (fits ORDERED h) l2 -> nth_error l1 n1 = Some r1 -> nth_error l2 n2 = Some r2 ->
    forward ORDERED net h l1 = Ok (x1, loss1) -> forward ORDERED net h l2 = Ok (x2, loss2) ->
    nth k (r_mask r1) 0 = 1 -> nth k (r_mask r2) 0 = 1 -> at_ x1 [n1; k] <> at_ x2 [n2; k].
Proof.
  intros h evs toks r1 r2 Lg T Hl R1 R2 P1 P2 N U.
  destruct (seats_apart _ _ evs P1 P2 N Lg U) as (d & Hd & Ap).
  set (w := MkWeights (fun _ _ => 0%R) (fun _ _ => 0%R) (fun _ _ => 0%R) (fun _ _ => 0%R) (fun _ _ => 0%R)).
  exists (probe w d). split; [apply probe_evaluation|]. intros l1 l2 n1 n2 x1 loss1 x2 loss2 k F1 F2 I1 I2 E1 E2 M1 M2.
  assert (G1 : fits ORDERED h r1) by (rewrite Forall_forall in F1; apply F1; exact (nth_error_In _ _ I1)).
  assert (G2 : fits ORDERED h r2) by (rewrite Forall_forall in F2; apply F2; exact (nth_error_In _ _ I2)).
  pose proof (columns_apart w d h evs toks r1 r2 Lg T Hl R1 R2 G1 G2) as C.
  assert (Hd' : (d < EMBD)%nat) by (unfold EMBD; lia).
  apply (probe_apart w d h l1 l2 n1 n2 r1 r2 x1 loss1 x2 loss2 k Hd' F1 F2 I1 I2); [|exact E1|exact E2|exact M1|exact M2].
  intros Q. rewrite Q, Rminus_diag_eq in C by reflexivity. apply Ap. symmetry in C. apply Rminus_diag_uniq in C. exact C.
Qed.
Print Assumptions C99_ordered_partial.
(** In the recorded round, the second discard: three players may win on it, one discard has
    been recorded. *)
Example C99_ordered_example : Forall legal_event [EvDiscard 2 17 false] /\ deeds [EvDiscard 2 17 false] 0 <> deeds [EvDiscard 2 17 false] 2 /\
  match mapM token [EvDiscard 2 17 false], sample_round all_wins ORDERED real_round with
  | Ok toks, Some (_, _, t) => match skipn 3 (t_post t) with
    | r1 :: r2 :: _ => forallb (fun r => Nat.eqb (List.length (r_tokens r)) 150 && forallb (fun p => Z.eqb (fst p) (snd p)) (combine (r_tokens r) (toks ++ repeat PAD_ID 149)) &&
        (nth 0 (r_mask r) 0 =? 1)) [r1; r2] && (r_player r1 =? 0) && (r_player r2 =? 1)
    | _ => false end
  | _, _ => false end = true.
Proof. split; [repeat constructor; cbn; lia|]. split; [discriminate|]. vm_compute. reflexivity. Qed.

(** ** C51 *)
(** Two histories of the same events by other players, in the same situation, get the same
    scores from the first three agents. *)
Lemma encode_relabelled a p q : a <> ORDERED -> forall evs1 evs2 toks1 toks2 i, Forall legal_event evs1 ->
  Forall2 (fun e1 e2 => exists w, 0 <= w < 4 /\ e2 = with_actor w e1) evs1 evs2 -> mapM token evs1 = Ok toks1 -> mapM token evs2 = Ok toks2 ->
  (i + List.length evs1 <= 150)%nat ->
  mapM (fun z => encode_token a p (fst z) (snd z)) (combine (seq i (List.length toks1)) toks1) =
  mapM (fun z => encode_token a q (fst z) (snd z)) (combine (seq i (List.length toks2)) toks2).
Proof.
  intros Na. induction evs1 as [|e1 l1 IH]; intros evs2 toks1 toks2 i Lg F T1 T2 Hi.
  - inversion F; subst. cbn [mapM] in T1, T2. apply Ok_inj in T1, T2. subst. reflexivity.
  - inversion F as [|? e2 ? l2 (w & Hw & ->) F']; subst. inversion Lg as [|? ? Le Lg']; subst. cbn [mapM] in T1, T2.
    destruct (token e1) as [t1|] eqn:A1; [|discriminate T1]. destruct (token (with_actor w e1)) as [t2|] eqn:A2; [|discriminate T2]. cbn [bind] in T1, T2.
    destruct (mapM token l1) as [ts1|] eqn:B1; [|discriminate T1]. destruct (mapM token l2) as [ts2|] eqn:B2; [|discriminate T2]. cbn [bind] in T1, T2. apply Ok_inj in T1, T2. subst.
    cbn [List.length] in Hi |- *. cbn [seq combine mapM fst snd].
    assert (Hi' : (i < 150)%nat) by lia. rewrite (first_rows _ _ _ _ _ Na Hi' Le A1).
    assert (Le2 : legal_event (with_actor w e1)) by (destruct e1; cbn [with_actor legal_event] in *; tauto).
    rewrite (first_rows _ _ _ _ _ Na Hi' Le2 A2).
    rewrite (IH l2 ts1 ts2 (S i) Lg' F' eq_refl B2) by lia. destruct e1; reflexivity.
Qed.

Lemma mapM_app_res {A B} (f : A -> res B) l1 l2 : mapM f (l1 ++ l2) = (x <- mapM f l1 ;; y <- mapM f l2 ;; Ok (x ++ y)).
Proof.
  induction l1 as [|a l IH]; cbn [app mapM bind]; [destruct (mapM f l2); reflexivity|]. destruct (f a) as [b|]; [|reflexivity]. cbn [bind]. rewrite IH.
  destruct (mapM f l) as [u|]; [|reflexivity]. cbn [bind]. destruct (mapM f l2); reflexivity.
Qed.
Lemma mapM_length {A B} (f : A -> res B) l r : mapM f l = Ok r -> List.length r = List.length l.
Proof.
  revert r. induction l as [|a l IH]; cbn [mapM]; intros r H; [apply Ok_inj in H; now subst|]. destruct (f a); [|discriminate H]. cbn [bind] in H.
  destruct (mapM f l) as [u|]; [|discriminate H]. cbn [bind] in H. apply Ok_inj in H. subst. cbn. now rewrite (IH u).
Qed.
Lemma combine_app_len {A B} (l1 l2 : list A) (m1 m2 : list B) : List.length l1 = List.length m1 -> combine (l1 ++ l2) (m1 ++ m2) = combine l1 m1 ++ combine l2 m2.
Proof. revert m1. induction l1 as [|a l IH]; intros [|b m] H; try discriminate H; [reflexivity|]. cbn. rewrite IH; [reflexivity|now injection H]. Qed.

Theorem C51_same_scores : forall a h net evs1 evs2 toks1 toks2 l1 l2 n1 n2 r1 r2 x1 loss1 x2 loss2 k, a <> ORDERED -> evaluation net ->
  Forall legal_event evs1 -> Forall2 (fun e1 e2 => exists w, 0 <= w < 4 /\ e2 = with_actor w e1) evs1 evs2 -> (List.length evs1 <= 150)%nat ->
  mapM token evs1 = Ok toks1 -> mapM token evs2 = Ok toks2 ->
  r_tokens r1 = toks1 ++ repeat PAD_ID (150 - List.length toks1) -> r_tokens r2 = toks2 ++ repeat PAD_ID (150 - List.length toks2) -> r_state r1 = r_state r2 ->
  Forall (fits a h) l1 -> Forall (fits a h) l2 -> nth_error l1 n1 = Some r1 -> nth_error l2 n2 = Some r2 ->
  forward a net h l1 = Ok (x1, loss1) -> forward a net h l2 = Ok (x2, loss2) ->
  nth k (r_mask r1) 0 = 1 -> nth k (r_mask r2) 0 = 1 -> at_ x1 [n1; k] = at_ x2 [n2; k].
Proof.
  intros a h net evs1 evs2 toks1 toks2 l1 l2 n1 n2 r1 r2 x1 loss1 x2 loss2 k Na Ev Lg F Hl T1 T2 R1 R2 Es F1 F2 I1 I2 E1 E2 M1 M2.
  eapply (same_scores a net h l1 l2 n1 n2 r1 r2); eauto. rewrite (encode_row_player a (r_player r2) (r_player r1) _ Na).
  assert (El : List.length toks2 = List.length toks1).
  { rewrite (mapM_length _ _ _ T1), (mapM_length _ _ _ T2). symmetry. clear - F. induction F; cbn; congruence. }
  rewrite R1, R2, El. unfold encode_row, enumerate. rewrite !app_length, El, seq_app, !combine_app_len by (rewrite seq_length; auto). rewrite !mapM_app_res.
  pose proof (encode_relabelled a (r_player r1) (r_player r1) Na _ _ _ _ 0%nat Lg F T1 T2 Hl) as Q. rewrite El in Q. rewrite Q. reflexivity.
Qed.
Print Assumptions C51_same_scores.
Example C51_same_scores_example : let e := EvDiscard 3 5 false in let es := [EvRiichi 2; e] in
  Forall legal_event es /\ Forall2 (fun e1 e2 => exists w, 0 <= w < 4 /\ e2 = with_actor w e1) es [EvRiichi 0; EvDiscard 1 5 false] /\
  exists t1 t2, mapM token es = Ok t1 /\ mapM token [EvRiichi 0; EvDiscard 1 5 false] = Ok t2 /\ t1 <> t2.
Proof.
  split; [repeat constructor; cbn; lia|]. split; [|eexists _, _; split; [reflexivity|]; split; [reflexivity|discriminate]].
  constructor; [exists 0; split; [lia|reflexivity]|]. constructor; [exists 1; split; [lia|reflexivity]|constructor].
Qed.
