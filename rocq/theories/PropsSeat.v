(** C112: is the network told for whom it decides? *)
From Coq Require Import ZArith List Bool Reals String Lia PeanoNat.
From Verif Require Import Base Constants Naki Decision GameInfo Agari Process SpecMeld SpecRound SpecTokens SpecEncoder SpecTable RoundLemmas RoundFacts VecLemmas TokensLemmas RoundExamples Tensor SpecTensor TensorLemmas TensorRound PropsTensor PropsTable PropsTurn PropsRound
  Encoder EncoderLemmas EncoderSum EncoderSumLemmas Network NetworkLemmas SpecNetwork NetworkForward NetworkRound PropsEncoder PropsNetwork PropsReact SpecSeat.
Import ListNotations.
Open Scope Z_scope.

(** ** The ordered agent *)
Lemma shapes_from : forall pls k sh, In sh (shapes k pls) -> match sh with HDuring _ i | HDiscard _ _ i | HPost _ i => k <= i end.
Proof.
  induction pls as [|a pls IH]; intros k sh I; [destruct I|].
  destruct a as [w x|w x|w c|w|w|x]; cbn [shapes] in I.
  - destruct I as [<-|I]; [lia|exact (IH _ _ I)].
  - destruct I as [<-|[<-|I]]; [lia..|]. apply IH in I. destruct sh; lia.
  - destruct (is_kakan c); [destruct I as [<-|I]; [lia|]|]; apply IH in I; destruct sh; lia.
  - exact (IH _ _ I).
  - apply IH in I. destruct sh; lia.
  - apply IH in I. destruct sh; lia.
Qed.

(** Before anything is recorded the dealer decides. *)
Lemma opening_decider d : forall pls, dealer_opens d pls -> forall sh, In sh (shapes 0 pls) ->
  match sh with HDuring w i | HDiscard w _ i => i = 0 -> w = d | HPost _ _ => True end.
Proof.
  induction pls as [|a pls IH]; intros O sh I; [destruct I|].
  destruct a as [w x|w x|w c|w|w|x]; cbn [shapes dealer_opens] in O, I.
  - destruct O as [-> O]. destruct I as [<-|I]; [auto|exact (IH O _ I)].
  - subst w. destruct I as [<-|[<-|I]]; [auto|exact Logic.I|]. apply shapes_from in I. destruct sh; [lia|lia|exact Logic.I].
  - destruct (is_kakan c); [destruct I as [<-|I]; [exact Logic.I|]|]; apply shapes_from in I; destruct sh; try exact Logic.I; lia.
  - destruct O as [_ O]. exact (IH O _ I).
  - destruct O.
  - destruct O.
Qed.
(** The first recorded event is the dealer's. *)
Lemma opening_event d : 0 <= d < 4 -> forall pls last e r, dealer_opens d pls -> public last pls = e :: r -> actor e = Some d /\ legal_event e.
Proof.
  intros Hd. induction pls as [|a pls IH]; intros last e r O E; [discriminate E|].
  destruct a as [w x|w x|w c|w|w|x]; cbn [public dealer_opens] in O, E.
  - exact (IH _ _ _ (proj2 O) E).
  - injection E as <- _. subst w. split; [reflexivity|]. cbn [legal_event]. split; [exact Hd|]. unfold tid. pose proof (Z.mod_pos_bound x 136 ltac:(lia)).
    split; [apply Z.div_pos; lia|apply Z.div_lt_upper_bound; lia].
  - injection E as <- _. destruct O as [-> O]. split; [reflexivity|]. cbn [legal_event]. auto.
  - exact (IH _ _ _ (proj2 O) E).
  - destruct O.
  - destruct O.
Qed.

(** What an own-turn or discard sample of the ordered agent shows: nothing recorded and the
    dealer deciding, or an event of the dealer first. *)
Lemma decider_shown L go e0 rest half tokens pls t r :
  process_round L go (e0 :: rest) = Ok (half, tokens) -> plays_of_round (e0 :: rest) pls -> build_tensors ORDERED half tokens = Ok t ->
  0 <= dealer e0 < 4 -> dealer_opens (dealer e0) pls -> In r (t_during t ++ t_discard t) ->
  List.length (r_tokens r) = 150%nat /\
  ((nth 0 (r_tokens r) 0 = PAD_ID /\ r_player r = dealer e0) \/
   exists e, actor e = Some (dealer e0) /\ legal_event e /\ token e = Ok (nth 0 (r_tokens r) 0)).
Proof.
  intros H P B Hd O I. destruct (accepted_formed _ _ _ _ _ _ _ H P) as (W & Ix & _). destruct (round_runs _ _ _ _ _ _ _ H P) as (plays & n & s & R & Eh & Et & _).
  assert (S : map shape_of half = shapes 0 pls).
  { rewrite Eh. rewrite <- (C30_indices _ _ _ _ _ _ _ R), map_map. apply map_ext. intros []; reflexivity. }
  assert (Q : exists h p i, In h half /\ (exists x, shape_of h = HDuring p i \/ shape_of h = HDiscard p x i) /\ tokens_before tokens i (r_tokens r) /\ r_player r = p).
  { destruct (build_ok _ _ _ _ B W Ix) as (D1 & D2 & _). apply in_app_iff in I as [I|I].
    - destruct (Forall2_In_r _ _ _ D1 r I) as (h & J & (p & v & ds & i & -> & T & _ & _ & Ep & _)).
      exists (DuringTurn p v ds i), p, i. split; [unfold own_turns in J; apply filter_In in J; apply J|]. split; [exists 0; left; reflexivity|]. auto.
    - destruct (Forall2_In_r _ _ _ D2 r I) as (h & J & (p & v & x & i & -> & T & _ & _ & Ep & _)).
      exists (DiscardTurn p v x i), p, i. split; [unfold discards in J; apply filter_In in J; apply J|]. split; [exists x; right; reflexivity|]. auto. }
  destruct Q as (h & p & i & J & (x & Sh) & (Lr & T) & Ep). split; [exact Lr|].
  assert (J' : In (shape_of h) (shapes 0 pls)) by (rewrite <- S; apply in_map, J).
  specialize (T 0%nat ltac:(lia)). change (Z.of_nat 0) with 0 in T.
  destruct (0 <? i) eqn:Ei.
  - right. apply Z.ltb_lt in Ei. pose proof (C29_tokens _ _ _ _ _ _ _ R) as F. rewrite <- Et in F.
    assert (Lt : i <= Z.of_nat (List.length tokens)).
    { destruct (C30_no_future L go e0 plays [] n s s pls pls R) as (F2 & _); [rewrite app_nil_r; exact R|]. rewrite Forall_forall in F2.
      rewrite Eh in J. apply in_map_iff in J as (h' & <- & J). apply in_rev in J. specialize (F2 h' J). rewrite <- Et in F2.
      assert (index_of h' = i) by (destruct h', Sh as [Sh|Sh]; cbn [shape_of map_half index_of] in *; congruence). lia. }
    destruct (public None pls) as [|e es] eqn:Pu; inversion F as [E1 E2|? tk ? tks Ee _ E1 E2]; subst tokens; [rewrite <- E2 in Lt; cbn in Lt; lia|].
    exists e. destruct (opening_event _ Hd _ _ _ _ O Pu) as [A1 A2]. split; [exact A1|]. split; [exact A2|]. rewrite T, <- E2. exact Ee.
  - left. apply Z.ltb_ge in Ei. assert (i = 0) by (rewrite Forall_forall in Ix; specialize (Ix h J); destruct Sh as [Sh|Sh]; destruct h; cbn in *; try discriminate; injection Sh; intros; subst; lia).
    split; [exact T|]. rewrite Ep. pose proof (opening_decider _ _ O _ J') as D. destruct Sh as [Sh|Sh]; rewrite Sh in D; auto.
Qed.

Lemma first_row p toks rows : encode_row ORDERED p toks = Ok rows -> toks <> [] -> encode_token ORDERED p 0 (nth 0 toks 0) = Ok (nth 0 rows []).
Proof.
  intros E N. destruct toks as [|x toks]; [contradiction N; reflexivity|]. unfold encode_row, enumerate in E. cbn [List.length seq combine mapM fst snd] in E.
  apply bind_ok in E as (y & Ey & E). apply bind_ok in E as (ys & _ & E). apply Ok_inj in E. subst rows. exact Ey.
Qed.

(** Two own-turn or discard samples of the ordered agent, from any rounds in which the dealer
    opens: if the players who decide sit in different seats, the encoder looks up different
    rows, or the other inputs differ. *)
Theorem C112_ordered_partial : forall L1 L2 go1 go2 e1 e2 rest1 rest2 half1 half2 tokens1 tokens2 pls1 pls2 t1 t2 r1 r2,
  process_round L1 go1 (e1 :: rest1) = Ok (half1, tokens1) -> plays_of_round (e1 :: rest1) pls1 -> build_tensors ORDERED half1 tokens1 = Ok t1 ->
  process_round L2 go2 (e2 :: rest2) = Ok (half2, tokens2) -> plays_of_round (e2 :: rest2) pls2 -> build_tensors ORDERED half2 tokens2 = Ok t2 ->
  0 <= dealer e1 < 4 -> 0 <= dealer e2 < 4 -> dealer_opens (dealer e1) pls1 -> dealer_opens (dealer e2) pls2 ->
  In r1 (t_during t1 ++ t_discard t1) -> In r2 (t_during t2 ++ t_discard t2) -> 0 <= r_player r1 < 4 -> 0 <= r_player r2 < 4 -> r_player r1 <> r_player r2 ->
  r_state r1 <> r_state r2 \/
  exists rows1 rows2, encode_row ORDERED (r_player r1) (r_tokens r1) = Ok rows1 /\ encode_row ORDERED (r_player r2) (r_tokens r2) = Ok rows2 /\ nth 0 rows1 [] <> nth 0 rows2 [].
Proof.
  intros L1 L2 go1 go2 e1 e2 rest1 rest2 half1 half2 tokens1 tokens2 pls1 pls2 t1 t2 r1 r2 H1 P1 B1 H2 P2 B2 D1 D2 O1 O2 I1 I2 R1 R2 N.
  destruct (C91_table _ _ _ _ _ _ _ _ _ H1 P1 B1) as [_ T1]. destruct (C91_table _ _ _ _ _ _ _ _ _ H2 P2 B2) as [_ T2]. rewrite Forall_forall in T1, T2.
  assert (J1 : In r1 (t_during t1 ++ t_discard t1 ++ t_post t1)) by (rewrite app_assoc; apply in_app_iff; now left).
  assert (J2 : In r2 (t_during t2 ++ t_discard t2 ++ t_post t2)) by (rewrite app_assoc; apply in_app_iff; now left).
  destruct (T1 r1 J1) as (m1 & h1 & _ & _ & (_ & S1 & _)). destruct (T2 r2 J2) as (m2 & h2 & _ & _ & (_ & S2 & _)).
  assert (Fit : forall L go evs half tokens t r, process_round L go evs = Ok (half, tokens) -> build_tensors ORDERED half tokens = Ok t -> In r (t_during t ++ t_discard t) ->
    exists rows, encode_row ORDERED (r_player r) (r_tokens r) = Ok rows).
  { intros L go evs half tokens t r H B I.
    assert (F : exists h, fits ORDERED h r) by (apply in_app_iff in I as [I|I]; [exists During|exists Discard]; apply C52_samples_fit; exists L, go, evs, half, tokens, t; auto).
    destruct F as (h & Ln & F & _). apply encode_row_total; [rewrite Ln; apply Nat.le_refl|exact F]. }
  destruct (list_eq_dec Z.eq_dec (nth 1 (f_x2 (r_state r1)) []) (nth 1 (f_x2 (r_state r2)) [])) as [E|E]; [right|left; intros Q; rewrite Q in E; now apply E].
  assert (D : dealer e1 = dealer e2).
  { rewrite S1, S2 in E. clear - E D1 D2. assert (C1 : dealer e1 = 0 \/ dealer e1 = 1 \/ dealer e1 = 2 \/ dealer e1 = 3) by lia. assert (C2 : dealer e2 = 0 \/ dealer e2 = 1 \/ dealer e2 = 2 \/ dealer e2 = 3) by lia.
    destruct C1 as [C1|[C1|[C1|C1]]], C2 as [C2|[C2|[C2|C2]]]; rewrite C1, C2 in E |- *; first [reflexivity|vm_compute in E; discriminate E]. }
  destruct (Fit _ _ _ _ _ _ _ H1 B1 I1) as (rows1 & G1). destruct (Fit _ _ _ _ _ _ _ H2 B2 I2) as (rows2 & G2). exists rows1, rows2. split; [exact G1|]. split; [exact G2|].
  destruct (decider_shown _ _ _ _ _ _ _ _ _ H1 P1 B1 D1 O1 I1) as (K1 & Q1). destruct (decider_shown _ _ _ _ _ _ _ _ _ H2 P2 B2 D2 O2 I2) as (K2 & Q2).
  apply first_row in G1; [|intros X; rewrite X in K1; discriminate K1]. apply first_row in G2; [|intros X; rewrite X in K2; discriminate K2].
  rewrite <- D in Q2. assert (Pd : forall p, encode_token ORDERED p 0 PAD_ID = Ok [] \/ exists x, encode_token ORDERED p 0 PAD_ID = Err x).
  { intros p. unfold encode_token. destruct (forallb _ _); [left; reflexivity|right; eauto]. }
  assert (Al : forall p e tk rw, legal_event e -> actor e = Some (dealer e1) -> token e = Ok tk -> encode_token ORDERED p 0 tk = Ok rw -> In (TPlayer, (dealer e1 - p) mod 4) rw /\ forall q, In (TPlayer, q) rw -> q = (dealer e1 - p) mod 4).
  { intros p e tk rw Le A Tk Ec. rewrite (ordered_rows p 0 e tk) in Ec; [|lia|exact Le|exact Tk]. apply Ok_inj in Ec. subst rw.
    destruct e as [w x f|w c|w|x]; cbn [actor] in A; try discriminate A; injection A as ->.
    - split; [cbn; auto|]. intros q [X|[X|[X|X]]]; [discriminate X|discriminate X|injection X as <-; reflexivity|]. destruct f; cbn in X; decompose [or] X; try contradiction; discriminate.
    - split; [cbn; auto|]. intros q [X|[X|[X|X]]]; [discriminate X|injection X as <-; reflexivity|discriminate X|]. destruct (call_action c); [|destruct X]. destruct X as [X|[]]. destruct (own_turn_call c); discriminate X.
    - split; [cbn; auto|]. intros q [X|[X|[X|[]]]]; [discriminate X|injection X as <-; reflexivity|discriminate X]. }
  destruct Q1 as [(Z1 & X1)|(ev1 & A1 & Le1 & Tk1)], Q2 as [(Z2 & X2)|(ev2 & A2 & Le2 & Tk2)].
  - congruence.
  - intros X. rewrite Z1 in G1. destruct (Pd (r_player r1)) as [Y|(y & Y)]; rewrite Y in G1; [|discriminate G1]. apply Ok_inj in G1.
    destruct (Al _ _ _ _ Le2 A2 Tk2 G2) as [V _]. rewrite <- X, <- G1 in V. destruct V.
  - intros X. rewrite Z2 in G2. destruct (Pd (r_player r2)) as [Y|(y & Y)]; rewrite Y in G2; [|discriminate G2]. apply Ok_inj in G2.
    destruct (Al _ _ _ _ Le1 A1 Tk1 G1) as [V _]. rewrite X, <- G2 in V. destruct V.
  - intros X. destruct (Al _ _ _ _ Le1 A1 Tk1 G1) as [V _]. destruct (Al _ _ _ _ Le2 A2 Tk2 G2) as [_ U]. rewrite X in V. apply U in V.
    apply N. clear - V R1 R2 D1. Z.to_euclidean_division_equations. lia.
Qed.
Print Assumptions C112_ordered_partial.

(** ** The other agents *)
(** In two rounds players 2 and 3 change roles: each time one of them pons the first East with
    the same tiles and has to discard.  The player on seat 2 has 50000 points, the one on seat
    3 none. *)
Definition table (hai2 hai3 : string) (evs : list event) : list event :=
  MkEvent "INIT" [("seed","1,0,0,2,3,132"); ("ten","250,250,500,0"); ("oya","0"); ("hai0","0,1,2,3,4,5,6,7,8,9,10,11,12"); ("hai1","20,21,22,23,24,25,26,27,28,29,30,31,32"); ("hai2",hai2); ("hai3",hai3)]%string
  :: MkEvent "T108" [] :: MkEvent "D108" [] :: evs ++ [MkEvent "RYUUKYOKU" [("sc", "250,0,250,0,500,0,0,0")]%string].
Definition east_tiles := "109,110,36,37,38,39,40,41,42,43,44,45,46"%string.
Definition south_tiles := "113,114,56,57,58,59,60,61,62,63,64,65,66"%string.
Definition pon_of (who m : string) : event := MkEvent "N" [("who", who); ("m", m)]%string.
Definition seat_2 : list event := table east_tiles south_tiles
  [pon_of "2" "41578"; MkEvent "F36" []; MkEvent "W70" []; MkEvent "G70" []; MkEvent "T124" []; MkEvent "D124" []; MkEvent "U112" []; MkEvent "E112" []; pon_of "3" "43114"; MkEvent "G56" []].
Definition seat_3 : list event := table south_tiles east_tiles
  [pon_of "3" "41577"; MkEvent "G36" []; MkEvent "T124" []; MkEvent "D124" []; MkEvent "U112" []; MkEvent "E112" []; pon_of "2" "43115"; MkEvent "F56" []; MkEvent "W70" []; MkEvent "G70" []].
Definition no_wins : libs := telling (fun _ => false).
Definition second_discard (a : agent) (evs : list event) : option sample :=
  match sample_round no_wins a evs with Some (_, _, t) => nth_error (t_discard t) 1 | None => None end.

Lemma second_from a evs r : second_discard a evs = Some r -> from_round a Discard r.
Proof.
  unfold second_discard, sample_round. intros H. destruct (process_round no_wins 169 evs) as [[h tk]|] eqn:E; [|discriminate H].
  destruct (build_tensors a h tk) as [t|] eqn:B; [|discriminate H]. exists no_wins, 169, evs, h, tk, t. split; [exact E|]. split; [exact B|]. exact (nth_error_In _ _ H).
Qed.

(** C112 is false for them: with any weights they give the same score to every discard of a
    leading player and of a bankrupt one in another seat. *)
Theorem C112_others_refuted : forall a, a <> ORDERED ->
  exists r1 r2, from_round a Discard r1 /\ from_round a Discard r2 /\ r_player r1 <> r_player r2 /\ own_score r1 <> own_score r2 /\
  r_mask r1 = r_mask r2 /\ 2 <= vsum (r_mask r1) /\
  forall net l1 l2 n1 n2 x1 loss1 x2 loss2 k, evaluation net ->
    Forall (fits a Discard) l1 -> Forall (fits a Discard) l2 -> nth_error l1 n1 = Some r1 -> nth_error l2 n2 = Some r2 ->
    forward a net Discard l1 = Ok (x1, loss1) -> forward a net Discard l2 = Ok (x2, loss2) ->
    nth k (r_mask r1) 0 = 1 -> at_ x1 [n1; k] = at_ x2 [n2; k].
Proof.
  intros a Na.
  assert (Q : exists r1 r2, second_discard a seat_2 = Some r1 /\ second_discard a seat_3 = Some r2 /\ r_player r1 <> r_player r2 /\ own_score r1 <> own_score r2 /\
    r_mask r1 = r_mask r2 /\ 2 <= vsum (r_mask r1) /\ encode_row a 0 (r_tokens r2) = encode_row a 0 (r_tokens r1) /\ r_state r2 = r_state r1).
  { destruct a; [| | |contradiction Na; reflexivity].
    all: eexists _, _; split; [vm_compute; reflexivity|]; split; [vm_compute; reflexivity|]; vm_compute; repeat split; discriminate. }
  destruct Q as (r1 & r2 & E1 & E2 & N & O & M & T & R & S). exists r1, r2. split; [exact (second_from _ _ _ E1)|]. split; [exact (second_from _ _ _ E2)|].
  do 4 (split; [assumption|]). intros net l1 l2 n1 n2 x1 loss1 x2 loss2 k Ev F1 F2 I1 I2 G1 G2 K.
  apply (same_scores a net Discard l1 l2 n1 n2 r1 r2 x1 loss1 x2 loss2 k Ev F1 F2 I1 I2); auto; [|rewrite <- M; exact K].
  rewrite (encode_row_player a (r_player r2) 0 _ Na), (encode_row_player a (r_player r1) 0 _ Na). exact R.
Qed.
Print Assumptions C112_others_refuted.

(** The hypotheses of [C112_ordered_partial] hold for the same two rounds. *)
Definition plays_in_order (evs : list event) : list play :=
  flat_map (fun e => match play_of e with Some x => [x] | None => [] end) (removelast (tl evs)).
Lemma opened evs : evs = seat_2 \/ evs = seat_3 -> exists e rest half tokens t r, evs = e :: rest /\ process_round no_wins 169 evs = Ok (half, tokens) /\ plays_of_round evs (plays_in_order evs) /\
  build_tensors ORDERED half tokens = Ok t /\ dealer e = 0 /\ dealer_opens 0 (plays_in_order evs) /\ In r (t_discard t) /\ second_discard ORDERED evs = Some r.
Proof.
  intros E.
  assert (P : plays_of_round evs (plays_in_order evs)) .
  { destruct E as [-> | ->];
    [exact (plays_check (hd (MkEvent "" []) seat_2) (removelast (tl seat_2)) [last seat_2 (MkEvent "" [])] eq_refl eq_refl eq_refl)|exact (plays_check (hd (MkEvent "" []) seat_3) (removelast (tl seat_3)) [last seat_3 (MkEvent "" [])] eq_refl eq_refl eq_refl)]. }
  assert (S : exists r, second_discard ORDERED evs = Some r) by (destruct E as [-> | ->]; eexists; vm_compute; reflexivity).
  destruct S as (r & S). pose proof S as S'. unfold second_discard, sample_round in S'.
  destruct (process_round no_wins 169 evs) as [[h tk]|] eqn:Ep; [|discriminate S']. destruct (build_tensors ORDERED h tk) as [t|] eqn:B; [|discriminate S'].
  destruct E as [-> | ->]; eexists _, _, h, tk, t, r; (split; [reflexivity|]); (split; [reflexivity|]); (split; [exact P|]); (split; [exact B|]); (split; [reflexivity|]); (split; [vm_compute; repeat split|]);
    (split; [exact (nth_error_In _ _ S')|exact S]).
Qed.
Example C112_example : exists r1 r2 rows1 rows2, second_discard ORDERED seat_2 = Some r1 /\ second_discard ORDERED seat_3 = Some r2 /\
  r_player r1 = 2 /\ r_player r2 = 3 /\ encode_row ORDERED 2 (r_tokens r1) = Ok rows1 /\ encode_row ORDERED 3 (r_tokens r2) = Ok rows2 /\
  nth 0 rows1 [] = [(TType, 1); (TTile, 27); (TPlayer, 2); (TTsumogiri, 1); (TPosition, 0)] /\ nth 0 rows2 [] = [(TType, 1); (TTile, 27); (TPlayer, 1); (TTsumogiri, 1); (TPosition, 0)].
Proof. do 4 eexists. do 2 (split; [vm_compute; reflexivity|]). repeat (split; [vm_compute; reflexivity|]). vm_compute. reflexivity. Qed.
