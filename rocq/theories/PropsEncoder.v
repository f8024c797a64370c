(** C50, C51, C76, C77: what the encoder sees of an event.  [actor], [with_actor]:
    SpecEncoder.v; [legal_event], [token], [same_event]: SpecTokens.v. *)
From Coq Require Import ZArith List Bool Reals Lra Lia String.
From Verif Require Import Base Constants Naki Tokens SpecMeld SpecTokens SpecEncoder TokensLemmas VecLemmas RoundLemmas Agari Process SpecRound SpecTurn RoundHalf RoundFacts RoundCount
  Tensor SpecTensor TensorLemmas TensorRound RoundExamples PropsTensor Encoder EncoderLemmas EncoderSum EncoderSumLemmas.
Import ListNotations.
Open Scope Z_scope.

(** ** C50 *)
(** Which integers can be embedded at all: the type field is at most 4. *)
Theorem C50_exact : forall a player pos t, (pos < 150)%nat ->
  ((exists rows, encode_token a player pos t = Ok rows) <-> enc_type t <= 4).
Proof.
  intros a player pos t Hp. change (enc_type t) with (embedding_type t). destruct (encode_token_total a player pos t Hp) as [[A E]|[A E]]; rewrite E.
  - split; [intros _; exact A|eauto].
  - split; [intros [? H]; discriminate H|lia].
Qed.
Print Assumptions C50_exact.
Lemma rows_known L go evs half tokens a t : process_round L go evs = Ok (half, tokens) -> build_tensors a half tokens = Ok t ->
  Forall (fun r => List.length (r_tokens r) = 150%nat /\ Forall (fun x => embedding_type x <= 4) (r_tokens r)) (t_during t ++ t_discard t ++ t_post t).
Proof.
  intros H B. destruct (plays_exist _ _ _ _ _ H) as (e0 & rest & pls & -> & P).
  destruct (round_runs _ _ _ _ _ _ _ H P) as (plays & n & s & R & _ & Et & _).
  assert (Tk : Forall (fun x => embedding_type x <= 4) tokens).
  { rewrite Et. destruct (token_inv_holds _ _ _ _ _ _ _ R) as [_ F]. pose proof (seats_ok_holds _ _ _ _ _ _ _ R) as So.
    assert (W : Forall who_ok (public None pls)).
    { clear - So. generalize (@None Z). induction So as [|p l Hp _ IH]; intros q; cbn [public]; [constructor|].
      destruct p; cbn [public]; auto; constructor; auto; cbn [who_ok]; auto. }
    clear - F W. induction F as [|e tk l l' E _ IH]; [constructor|]. inversion W as [|? ? W1 W2]; subst. constructor; [exact (token_embeds e tk W1 E)|now apply IH]. }
  assert (Row : forall h r, tokens_before tokens h (r_tokens r) -> List.length (r_tokens r) = 150%nat /\ Forall (fun x => embedding_type x <= 4) (r_tokens r)).
  { intros h r [Lr Nr]. split; [exact Lr|]. apply Forall_forall. intros x Hx. destruct (In_nth _ _ 0 Hx) as (j & Hj & <-).
    rewrite Lr in Hj. rewrite Nr by exact Hj. destruct (_ <? _); [|cbn; lia]. destruct (nth_in_or_default j tokens 0) as [I| ->]; [|cbn; lia]. rewrite Forall_forall in Tk. now apply Tk. }
  destruct (C43_rows _ _ _ _ _ _ _ H B) as (D1 & D2 & rows & -> & D3). rewrite !Forall_app. split; [|split].
  - clear - D1 Row. induction D1 as [|h r l l' Q _ IH]; constructor; [exact (Row _ _ Q)|exact IH].
  - clear - D2 Row. induction D2 as [|h r l l' Q _ IH]; constructor; [exact (Row _ _ Q)|exact IH].
  - clear - D3 Row. induction D3 as [|h rs l l' F _ IH]; cbn [List.concat]; [constructor|]. apply Forall_app. split; [|exact IH].
    clear - F Row. induction F as [|q r l l' Q _ IH]; constructor; [exact (Row _ _ Q)|exact IH].
Qed.
(** Every row of every sample of an accepted round can be embedded. *)
Theorem C50_in_range : forall L go evs half tokens a t, process_round L go evs = Ok (half, tokens) -> build_tensors a half tokens = Ok t ->
  Forall (fun r => forall player, exists x, encode_row a player (r_tokens r) = Ok x) (t_during t ++ t_discard t ++ t_post t).
Proof.
  intros L go evs half tokens a t H B. eapply Forall_impl; [|exact (rows_known _ _ _ _ _ _ _ H B)]. intros r [Lr Kr] player. apply encode_row_total; [rewrite Lr; lia|exact Kr].
Qed.
Print Assumptions C50_in_range.
(** Clamping changes nothing for legal events: the rows used by the ordered agent carry
    the tile and the action number themselves. *)
Theorem C50_no_clamping : forall player pos e tok, (pos < 150)%nat -> legal_event e -> token e = Ok tok ->
  exists rows, encode_token ORDERED player pos tok = Ok rows /\
  match e with
  | EvDiscard _ tile _ => In (TTile, tile) rows
  | EvCall _ c => exists i, call_action c = Ok i /\ In (if own_turn_call c then TDuring else TPost, i) rows
  | EvRiichi _ => In (TType, ET_RIICHI - 1) rows
  | EvDora tile => In (TTile, tile) rows
  end.
Proof.
  intros player pos e tok Hp L T. rewrite (ordered_rows _ _ _ _ Hp L T). eexists. split; [reflexivity|].
  destruct e as [w x f|w c|w|x]; cbn [legal_event] in L; [right; now left| |now left|right; now left].
  destruct (call_tok w c (proj1 L) (proj2 L)) as (i & Ei & _). exists i. split; [exact Ei|]. rewrite Ei. cbn [app In]. auto.
Qed.
Print Assumptions C50_no_clamping.
Example C50_example : legal_event (EvDiscard 2 33 true) /\ token (EvDiscard 2 33 true) = Ok 10913 /\
  encode_token ORDERED 1 7 10913 = Ok [(TType, 1); (TTile, 33); (TPlayer, 1); (TTsumogiri, 1); (TPosition, 7)] /\
  encode_token TF 1 7 10913 = Ok [(TPosition, 7); (TDuring, 70); (TPost, 153)] /\ encode_token TF 0 0 5120 = Err IndexError.
Proof. split; [cbn; lia|]. repeat split. Qed.

(** ** C51 *)
(** In the ordered agent the inputs for two different actors differ, whatever the weights. *)
Theorem C51_ordered : forall w player pos e p1 p2 t1 t2 x1 x2, (pos < 150)%nat -> actor e <> None -> 0 <= p1 < 4 -> 0 <= p2 < 4 -> p1 <> p2 ->
  legal_event (with_actor p1 e) -> token (with_actor p1 e) = Ok t1 -> token (with_actor p2 e) = Ok t2 ->
  embed ORDERED w player pos t1 = Ok x1 -> embed ORDERED w player pos t2 = Ok x2 -> exists d, (d < 64)%nat /\ x1 d <> x2 d.
Proof.
  intros w player pos e p1 p2 t1 t2 x1 x2 Hp Ha H1 H2 N L1 T1 T2 E1 E2.
  assert (L2 : legal_event (with_actor p2 e)) by (destruct e; cbn [with_actor legal_event] in *; tauto).
  unfold embed in E1, E2. rewrite (ordered_rows _ _ _ _ Hp L1 T1) in E1. rewrite (ordered_rows _ _ _ _ Hp L2 T2) in E2. cbn [bind] in E1, E2. apply Ok_inj in E1, E2. subst x1 x2.
  assert (D : exists d, (d < 2)%nat /\ player_row ((p1 - player) mod 4) d <> player_row ((p2 - player) mod 4) d).
  { destruct (Req_dec (player_row ((p1 - player) mod 4) 0) (player_row ((p2 - player) mod 4) 0)) as [A|A]; [|exists 0%nat; split; [lia|exact A]].
    destruct (Req_dec (player_row ((p1 - player) mod 4) 1) (player_row ((p2 - player) mod 4) 1)) as [B|B]; [|exists 1%nat; split; [lia|exact B]].
    exfalso. apply N, (seat_diff p1 p2 player H1 H2), player_rows_differ; [apply Z.mod_pos_bound; lia..|]. intros d Hd. destruct d as [|[|]]; [exact A|exact B|lia]. }
  destruct D as (d & Hd & D). exists d. split; [lia|]. intros E. apply D.
  destruct e as [w0 x f|w0 c|w0|x]; cbn [with_actor] in E; [| | |contradiction Ha; reflexivity]; rewrite ?row_sum_app, ?row_sum_cons in E; cbn [row_of fst snd] in E; lra.
Qed.
Print Assumptions C51_ordered.
(** In the other three they are always equal: the actor of a discard, a call or a riichi
    cannot be seen. *)
Theorem C51_others_refuted : forall a w player1 player2 pos e p1 p2 t1 t2, a <> ORDERED -> (pos < 150)%nat -> 0 <= p1 < 4 -> 0 <= p2 < 4 ->
  legal_event (with_actor p1 e) -> token (with_actor p1 e) = Ok t1 -> token (with_actor p2 e) = Ok t2 ->
  exists x, embed a w player1 pos t1 = Ok x /\ embed a w player2 pos t2 = Ok x.
Proof.
  intros a w player1 player2 pos e p1 p2 t1 t2 Na Hp H1 H2 L1 T1 T2.
  assert (L2 : legal_event (with_actor p2 e)) by (destruct e; cbn [with_actor legal_event] in *; tauto).
  unfold embed. rewrite (first_rows _ _ _ _ _ Na Hp L1 T1), (first_rows _ _ _ _ _ Na Hp L2 T2). cbn [bind].
  eexists. split; [reflexivity|]. destruct e; reflexivity.
Qed.
Print Assumptions C51_others_refuted.
Example C51_example : token (with_actor 0 (EvDiscard 3 5 false)) = Ok 10245 /\ token (with_actor 1 (EvDiscard 3 5 false)) = Ok 10501 /\
  encode_token ORDERED 2 0 10245 = Ok [(TType, 1); (TTile, 5); (TPlayer, 2); (TPosition, 0)] /\
  encode_token ORDERED 2 0 10501 = Ok [(TType, 1); (TTile, 5); (TPlayer, 3); (TPosition, 0)] /\
  encode_token CONV 2 0 10245 = Ok [(TTsumogiri, 0); (TPosition, 0); (TDuring, 5); (TPost, 5)] /\ encode_token CONV 2 0 10501 = encode_token CONV 2 0 10245.
Proof. repeat split. Qed.

(** ** C76 *)
(** Padding contributes nothing in the ordered agent. *)
Theorem C76_ordered : forall w player pos, (pos < 150)%nat -> exists x, embed ORDERED w player pos PAD_ID = Ok x /\ forall d, x d = 0%R.
Proof.
  intros w player pos Hp. exists (fun _ => 0%R). split; [|reflexivity]. unfold embed.
  destruct (encode_token_total ORDERED player pos PAD_ID Hp) as [[_ ->]|[Q _]]; [reflexivity|cbn in Q; lia].
Qed.
Print Assumptions C76_ordered.
(** In the other agents it contributes six rows; with all trainable weights zero the
    player row is left. *)
Theorem C76_exact_partial : forall a w player pos, a <> ORDERED -> (pos < 150)%nat -> exists x, embed a w player pos PAD_ID = Ok x /\
  forall d, x d = (w_type w 0 d + w_tile w 0 d + player_row 0 d + w_tsumogiri w 0 d + w_during w 0 d + w_post w 0 d)%R.
Proof.
  intros a w player pos Na Hp. unfold embed. destruct (encode_token_total a player pos PAD_ID Hp) as [[_ ->]|[Q _]]; [|cbn in Q; lia]. cbn [bind]. eexists. split; [reflexivity|].
  intros d. destruct a; try contradiction; cbn [lookups filter lk_on map]; unfold row_sum; cbn; lra.
Qed.
Print Assumptions C76_exact_partial.
Theorem C76_refuted : forall a player pos, a <> ORDERED -> (pos < 150)%nat -> exists x, embed a zero player pos PAD_ID = Ok x /\ x 1%nat = 1%R.
Proof.
  intros a player pos Na Hp. destruct (C76_exact_partial a zero player pos Na Hp) as (x & E & F). exists x. split; [exact E|]. rewrite F.
  destruct (quarter 0 ltac:(lia)) as [_ ->]. cbn. lra.
Qed.
Print Assumptions C76_refuted.

(** ** C77 *)
(** Ordered agent: two events whose inputs agree for all weights are the same event. *)
Theorem C77_ordered : forall player pos e1 e2 t1 t2, (pos < 150)%nat -> legal_event e1 -> legal_event e2 -> token e1 = Ok t1 -> token e2 = Ok t2 ->
  (forall w x1 x2, embed ORDERED w player pos t1 = Ok x1 -> embed ORDERED w player pos t2 = Ok x2 -> forall d, (d < 64)%nat -> x1 d = x2 d) -> same_event e1 e2.
Proof.
  intros player pos e1 e2 t1 t2 Hp L1 L2 T1 T2 S. eapply (ordered_distinct player pos); [exact Hp|exact L1|exact L2|exact T1|exact T2|apply (ordered_rows _ _ _ _ Hp L1 T1)|apply (ordered_rows _ _ _ _ Hp L2 T2)|].
  intros w d Hd. eapply (S w); [unfold embed; rewrite (ordered_rows _ _ _ _ Hp L1 T1); reflexivity|unfold embed; rewrite (ordered_rows _ _ _ _ Hp L2 T2); reflexivity|exact Hd].
Qed.
Print Assumptions C77_ordered.
(** The others cannot tell which honour tile a player drew and discarded. *)
Theorem C77_others_refuted : forall a w player pos p1 p2 k1 k2, a <> ORDERED -> (pos < 150)%nat -> 0 <= p1 < 4 -> 0 <= p2 < 4 -> 25 <= k1 < 37 -> 25 <= k2 < 37 ->
  exists t1 t2 x, token (EvDiscard p1 k1 true) = Ok t1 /\ token (EvDiscard p2 k2 true) = Ok t2 /\ embed a w player pos t1 = Ok x /\ embed a w player pos t2 = Ok x.
Proof.
  intros a w player pos p1 p2 k1 k2 Na Hp H1 H2 K1 K2.
  pose proof (discard_tok p1 k1 true H1 ltac:(lia)) as T1. pose proof (discard_tok p2 k2 true H2 ltac:(lia)) as T2.
  eexists _, _. unfold embed. cbn [token].
  assert (L1 : legal_event (EvDiscard p1 k1 true)) by (cbn; lia). assert (L2 : legal_event (EvDiscard p2 k2 true)) by (cbn; lia).
  eexists. split; [exact T1|]. split; [exact T2|].
  rewrite (first_rows a player pos _ _ Na Hp L1 T1), (first_rows a player pos _ _ Na Hp L2 T2). cbn [bind app]. rewrite (Z.min_l 153 (128 + k1)), (Z.min_l 153 (128 + k2)) by lia. split; reflexivity.
Qed.
Print Assumptions C77_others_refuted.
Example C77_example : legal_event (EvDiscard 0 27 true) /\ legal_event (EvDiscard 0 33 true) /\ ~ same_event (EvDiscard 0 27 true) (EvDiscard 0 33 true).
Proof. cbn. repeat split; lia. Qed.
