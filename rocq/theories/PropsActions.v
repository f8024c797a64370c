(** C126 and C127: which action numbers name a call, and which rows of the encoder's
    tables an event can reach.  [in_range]: SpecMeld.v; [legal_event], [token],
    [call_action], [own_turn_call]: SpecTokens.v. *)
From Coq Require Import ZArith List Bool Lia Reals Lra.
From Verif Require Import Base Constants Naki Tokens SpecMeld SpecTokens NakiProofs NakiLemmas NakiCore NakiLemmas2 TokensLemmas VecLemmas Tensor Encoder EncoderLemmas EncoderSum EncoderSumLemmas PropsTokens.
Import ListNotations.
Open Scope Z_scope.

(** ** C126 *)
(** The numbers of the head for other players' discards that no call has. *)
Definition nameless : list Z := [65; 66; 67; 70; 73; 76; 79; 82].

Definition chk_named r : bool := implb (in_rangeb r) match get_post_turn_filter_idx r with Ok i => negb (existsb (Z.eqb i) nameless) | Err _ => true end.
Lemma chk_named_all : core_sweep chk_named = true.
Proof. vm_cast_no_check (eq_refl true). Qed.
Lemma chk_named_at r : chk_named r = true.
Proof.
  rewrite <- (core_sweep_ok _ chk_named_all r). unfold chk_named. destruct (core_tiles r) as (_ & _ & T3 & _). now rewrite in_rangeb_core, T3.
Qed.
Lemma not_nameless c i : in_range c -> get_post_turn_filter_idx c = Ok i -> ~ In i nameless.
Proof.
  intros R E I. apply in_rangeb_ok in R. rewrite post_idx_lo in E. pose proof (chk_named_at (lo c)) as H. unfold chk_named in H. rewrite R, E in H. cbn [implb] in H.
  apply negb_true_iff in H. assert (X : existsb (Z.eqb i) nameless = true) by (apply existsb_exists; exists i; split; [exact I|apply Z.eqb_refl]). rewrite X in H. discriminate H.
Qed.

(** A call for every other number. *)
Definition some_call (own : bool) (i : Z) : Z :=
  if own then if i <=? 36 then 1024 * (i - 3) else 1536 * (i - 37) + 16
  else if i <=? 64 then 1024 * (i - 2) + 172
  else if i <=? 82 then 1024 * nth (Z.to_nat (i - 68)) [6; 7; 0; 9; 11; 0; 13; 28; 0; 30; 32; 0; 34; 49] 0 + 4
  else if i <=? 109 then 1536 * (i - 83) + 8
  else if i <=? 112 then 512 * (27 * (i - 110) + 14) + 40
  else if i <=? 119 then 1536 * (i - 86) + 8
  else 1024 * (i - 120) + 1.
Definition named (own : bool) (i : Z) : bool :=
  if own then (3 <=? i) && (i <=? 70) else (2 <=? i) && (i <=? 153) && negb (existsb (Z.eqb i) nameless).
Lemma some_call_all : forallb (fun i => forallb (fun own => implb (named own i)
  (in_rangeb (some_call own i) && Bool.eqb (own_turn_call (some_call own i)) own && match call_action (some_call own i) with Ok j => j =? i | Err _ => false end)) [true; false])
  (map Z.of_nat (seq 0 154)) = true.
Proof. vm_compute. reflexivity. Qed.
Lemma in_rangeb_back c : in_rangeb c = true -> in_range c.
Proof.
  unfold in_rangeb, in_range. destruct (spec_kind c) as [[]|]; intros H; try discriminate H; try (apply Z.ltb_lt; exact H).
  apply andb_prop in H as [A B]. split; [apply Z.eqb_eq; exact A|apply Z.ltb_lt; exact B].
Qed.
Lemma some_call_ok own i : named own i = true -> in_range (some_call own i) /\ own_turn_call (some_call own i) = own /\ call_action (some_call own i) = Ok i.
Proof.
  intros H. assert (B : 0 <= i <= 153).
  { unfold named in H. destruct own; repeat (apply andb_prop in H as [H ?]); repeat match goal with h : (_ <=? _) = true |- _ => apply Z.leb_le in h end; lia. }
  pose proof some_call_all as A. rewrite forallb_forall in A. specialize (A i). rewrite <- (Z2Nat.id i) in A at 1 by lia.
  specialize (A (in_map Z.of_nat _ _ (proj2 (in_seq 154 0 (Z.to_nat i)) ltac:(lia)))). rewrite forallb_forall in A. specialize (A own ltac:(destruct own; cbn; tauto)).
  cbn beta in A. rewrite H in A. cbn [implb] in A. apply andb_prop in A as [A A3]. apply andb_prop in A as [A1 A2].
  split; [apply in_rangeb_back; exact A1|]. split; [apply eqb_prop; exact A2|]. destruct (call_action (some_call own i)) as [j|]; [|discriminate A3]. apply Z.eqb_eq in A3. now subst.
Qed.
Lemma named_spec own i : named own i = true <-> if own then 3 <= i <= 70 else 2 <= i <= 153 /\ ~ In i nameless.
Proof.
  unfold named. destruct own.
  - rewrite andb_true_iff, !Z.leb_le. tauto.
  - rewrite !andb_true_iff, !Z.leb_le, negb_true_iff. split; intros [A B]; (split; [exact A|]).
    + intros I. assert (X : existsb (Z.eqb i) nameless = true) by (apply existsb_exists; exists i; split; [exact I|apply Z.eqb_refl]). congruence.
    + destruct (existsb (Z.eqb i) nameless) eqn:X; [|reflexivity]. apply existsb_exists in X as (j & J1 & J2). apply Z.eqb_eq in J2. subst. contradiction.
Qed.
Lemma actions own i : (exists c, in_range c /\ own_turn_call c = own /\ call_action c = Ok i) <-> if own then 3 <= i <= 70 else 2 <= i <= 153 /\ ~ In i nameless.
Proof.
  split.
  - intros (c & R & O & A). pose proof (call_index c i R A) as B. rewrite O in B. destruct own; [exact B|]. split; [exact B|].
    unfold call_action in A. rewrite O in A. exact (not_nameless c i R A).
  - intros H. apply named_spec in H. exists (some_call own i). apply some_call_ok, H.
Qed.

(** On the player's own turn the numbers 3 to 70 are exactly the numbers of the calls. *)
Theorem C126_own : forall i, (exists c, in_range c /\ own_turn_call c = true /\ call_action c = Ok i) <-> 3 <= i <= 70.
Proof. intros i. exact (actions true i). Qed.
Print Assumptions C126_own.
(** After a discard eight of the numbers 2 to 153 are no call's number. *)
Theorem C126_other_partial : forall i, (exists c, in_range c /\ own_turn_call c = false /\ call_action c = Ok i) <-> 2 <= i <= 153 /\ ~ In i nameless.
Proof. intros i. exact (actions false i). Qed.
Print Assumptions C126_other_partial.
Theorem C126_refuted : exists i, 2 <= i <= 153 /\ ~ exists c, in_range c /\ own_turn_call c = false /\ call_action c = Ok i.
Proof. exists 65. split; [lia|]. rewrite C126_other_partial. intros [_ H]. apply H. cbn. tauto. Qed.
Print Assumptions C126_refuted.
(** Non-vacuity: a chi with a red five from the hand has the number 69, its neighbour 70
    is no call's. *)
Example C126_example : in_range (1024 * 7 + 4) /\ own_turn_call (1024 * 7 + 4) = false /\ call_action (1024 * 7 + 4) = Ok 69 /\ In 70 nameless /\ ~ In 69 nameless.
Proof.
  split; [vm_compute; reflexivity|]. split; [vm_compute; reflexivity|]. split; [vm_compute; reflexivity|]. split; [cbn; tauto|].
  cbn. intros H. repeat (destruct H as [H|H]; [discriminate H|]). exact H.
Qed.

(** ** C127 *)
(** The tokens of a row: an event's or the padding. *)
Definition real_token (t : Z) : Prop := t = PAD_ID \/ exists e, legal_event e /\ token e = Ok t.
(** Row [i] of table [tb] is part of the input for some token at some position, for some
    deciding player. *)
Definition reached (a : agent) (tb : table) (i : Z) : Prop :=
  exists player pos t rows, 0 <= player < 4 /\ (pos < 150)%nat /\ real_token t /\ encode_token a player pos t = Ok rows /\ In (tb, i) rows.
(** The rows that are never part of the input. *)
Definition idle (a : agent) (tb : table) (i : Z) : Prop :=
  match a, tb with
  | ORDERED, TType => i = 0
  | ORDERED, TTsumogiri => i = 0
  | ORDERED, TDuring => i < 3
  | ORDERED, TPost => i < 2 \/ In i nameless
  | ORDERED, _ => False
  | _, TType | _, TPlayer => i <> 0
  | _, TDuring => 65 <= i <= 67
  | _, TPost => 71 <= i <= 127
  | _, _ => False
  end.

Lemma pad_rows a player pos : (pos < 150)%nat -> encode_token a player pos PAD_ID = Ok match a with ORDERED => [] | _ => [(TType, 0); (TTile, 0); (TPlayer, 0); (TTsumogiri, 0); (TDuring, 0); (TPost, 0)] end.
Proof. intros Hp. destruct (encode_token_total a player pos PAD_ID Hp) as [[_ ->]|[Q _]]; [|cbn in Q; lia]. destruct a; reflexivity. Qed.
Lemma call_numbers w c : 0 <= w < 4 -> in_range c -> exists i, call_action c = Ok i /\ if own_turn_call c then 3 <= i <= 70 else 2 <= i <= 153 /\ ~ In i nameless.
Proof.
  intros W R. destruct (call_tok w c W R) as (i & A & _). exists i. split; [exact A|]. apply (actions (own_turn_call c)). eauto.
Qed.
Ltac pick H := repeat (destruct H as [H|H]; [try discriminate H; try (apply pair_equal_spec in H; destruct H as [? ?]; subst)|]); try contradiction H.

Lemma reached_ordered tb i : reached ORDERED tb i -> 0 <= i < table_rows ORDERED tb /\ ~ idle ORDERED tb i.
Proof.
  intros (player & pos & t & rows & Pl & Hp & [->|(e & L & T)] & E & I).
  - rewrite pad_rows in E by exact Hp. injection E as <-. destruct I.
  - rewrite (ordered_rows player pos e t Hp L T) in E. apply (f_equal (fun r => match r with Ok l => l | Err _ => [] end)) in E. cbn beta match in E. subst rows.
    destruct e as [w x ts|w c|w|x]; cbn [legal_event] in L.
    + pose proof (Z.mod_pos_bound (w - player) 4 eq_refl). apply in_app_or in I as [I|I]; [|destruct ts]; cbn [In app] in I; pick I; cbn [table_rows idle]; lia.
    + pose proof (Z.mod_pos_bound (w - player) 4 eq_refl). destruct (call_numbers w c (proj1 L) (proj2 L)) as (j & J & B). rewrite J in I. cbn [In app] in I.
      destruct (own_turn_call c); pick I; cbn [table_rows idle]; try lia. split; [lia|]. intros [Q|Q]; [lia|]. apply (proj2 B Q).
    + pose proof (Z.mod_pos_bound (w - player) 4 eq_refl). cbn [In] in I. pick I; cbn [table_rows idle]; lia.
    + cbn [In] in I. pick I; cbn [table_rows idle]; lia.
Qed.
Lemma reached_first a tb i : a <> ORDERED -> reached a tb i -> 0 <= i < table_rows a tb /\ ~ idle a tb i.
Proof.
  intros Na (player & pos & t & rows & Pl & Hp & [->|(e & L & T)] & E & I).
  - rewrite pad_rows in E by exact Hp. injection E as <-. destruct a; try contradiction; cbn [In] in I; pick I; cbn [table_rows idle]; lia.
  - rewrite (first_rows a player pos e t Na Hp L T) in E. apply (f_equal (fun r => match r with Ok l => l | Err _ => [] end)) in E. cbn beta match in E. subst rows.
    enough (Q : 0 <= i < table_rows TF tb /\ ~ idle TF tb i) by (destruct a; try contradiction; exact Q). clear a Na.
    destruct e as [w x ts|w c|w|x]; cbn [legal_event] in L.
    + apply in_app_or in I as [I|I]; destruct ts; cbn [In app] in I; pick I; cbn [table_rows idle]; lia.
    + destruct (call_numbers w c (proj1 L) (proj2 L)) as (j & J & B). rewrite J in I. cbn [In app] in I. pose proof (Z.mod_pos_bound j 128 eq_refl).
      destruct (own_turn_call c); pick I; cbn [table_rows idle]; try lia.
      split; [lia|]. intros Q. destruct B as [B1 B2]. apply B2. unfold nameless. cbn [In]. assert (j = 65 \/ j = 66 \/ j = 67) as Q' by lia. destruct Q' as [->|[->| ->]]; tauto.
    + cbn [In] in I. pick I; cbn [table_rows idle]; lia.
    + cbn [In] in I. pick I; cbn [table_rows idle]; lia.
Qed.

Lemma legal_token e : legal_event e -> exists t, token e = Ok t.
Proof. intros L. destruct (C09_token_decodes e L) as (t & T & _). eauto. Qed.
Lemma reach_pad a tb i : In (tb, i) (match a with ORDERED => [] | _ => [(TType, 0); (TTile, 0); (TPlayer, 0); (TTsumogiri, 0); (TDuring, 0); (TPost, 0)] end) -> reached a tb i.
Proof. intros I. exists 0, 0%nat, PAD_ID. eexists. split; [lia|]. split; [lia|]. split; [now left|]. split; [apply pad_rows; lia|exact I]. Qed.
Lemma reach_event a tb i player pos e : 0 <= player < 4 -> (pos < 150)%nat -> legal_event e -> (forall t rows, token e = Ok t -> encode_token a player pos t = Ok rows -> In (tb, i) rows) ->
  reached a tb i.
Proof.
  intros Pl Hp L F. destruct (legal_token e L) as (t & T). assert (X : exists rows, encode_token a player pos t = Ok rows).
  { destruct a; (eexists; first [exact (ordered_rows player pos e t Hp L T)|refine (first_rows _ player pos e t _ Hp L T); discriminate]). }
  destruct X as (rows & X). exists player, pos, t, rows. split; [exact Pl|]. split; [exact Hp|]. split; [right; eauto|]. split; [exact X|exact (F t rows T X)].
Qed.
Lemma some_call_legal own i : named own i = true -> legal_event (EvCall 0 (some_call own i)).
Proof. intros H. split; [lia|apply some_call_ok, H]. Qed.
Lemma ordered_reached tb i : 0 <= i < table_rows ORDERED tb -> ~ idle ORDERED tb i -> reached ORDERED tb i.
Proof.
  intros B N. destruct tb; cbn [table_rows idle] in B, N.
  - assert (i = 1 \/ i = 2 \/ i = 3) as [->|[->| ->]] by lia.
    + apply (reach_event _ _ _ 0 0 (EvDiscard 0 0 true)); [lia|lia|cbn; lia|]. intros t rows T E. rewrite (ordered_rows 0 0 (EvDiscard 0 0 true) t ltac:(lia) ltac:(cbn; lia) T) in E. injection E as <-. cbn; tauto.
    + apply (reach_event _ _ _ 0 0 (EvRiichi 0)); [lia|lia|cbn; lia|]. intros t rows T E. rewrite (ordered_rows 0 0 (EvRiichi 0) t ltac:(lia) ltac:(cbn; lia) T) in E. injection E as <-. cbn; tauto.
    + apply (reach_event _ _ _ 0 0 (EvDora 0)); [lia|lia|cbn; lia|]. intros t rows T E. rewrite (ordered_rows 0 0 (EvDora 0) t ltac:(lia) ltac:(cbn; lia) T) in E. injection E as <-. cbn; tauto.
  - apply (reach_event _ _ _ 0 0 (EvDora i)); [lia|lia|cbn; lia|]. intros t rows T E. rewrite (ordered_rows 0 0 (EvDora i) t ltac:(lia) ltac:(cbn; lia) T) in E. injection E as <-. cbn; tauto.
  - apply (reach_event _ _ _ 0 0 (EvRiichi i)); [lia|lia|cbn; lia|]. intros t rows T E. rewrite (ordered_rows 0 0 (EvRiichi i) t ltac:(lia) ltac:(cbn; lia) T) in E. injection E as <-.
    rewrite Z.sub_0_r, Z.mod_small by lia. cbn; tauto.
  - assert (i = 1) as -> by lia. apply (reach_event _ _ _ 0 0 (EvDiscard 0 0 true)); [lia|lia|cbn; lia|]. intros t rows T E. rewrite (ordered_rows 0 0 (EvDiscard 0 0 true) t ltac:(lia) ltac:(cbn; lia) T) in E. injection E as <-. cbn; tauto.
  - apply (reach_event _ _ _ 0 (Z.to_nat i) (EvRiichi 0)); [lia|lia|cbn; lia|]. intros t rows T E. rewrite (ordered_rows 0 (Z.to_nat i) (EvRiichi 0) t ltac:(lia) ltac:(cbn; lia) T) in E. injection E as <-.
    rewrite Z2Nat.id by lia. cbn; tauto.
  - assert (M : named true i = true) by (apply named_spec; lia). pose proof (some_call_legal _ _ M) as L. destruct (some_call_ok _ _ M) as (_ & O & A).
    apply (reach_event _ _ _ 0 0 _ ltac:(lia) ltac:(lia) L). intros t rows T E. rewrite (ordered_rows 0 0 _ t ltac:(lia) L T), A, O in E. injection E as <-. cbn; tauto.
  - assert (M : named false i = true) by (apply named_spec; split; [lia|tauto]). pose proof (some_call_legal _ _ M) as L. destruct (some_call_ok _ _ M) as (_ & O & A).
    apply (reach_event _ _ _ 0 0 _ ltac:(lia) ltac:(lia) L). intros t rows T E. rewrite (ordered_rows 0 0 _ t ltac:(lia) L T), A, O in E. injection E as <-. cbn; tauto.
Qed.
Lemma first_reached a tb i : a <> ORDERED -> 0 <= i < table_rows a tb -> ~ idle a tb i -> reached a tb i.
Proof.
  intros Na B N. assert (B' : 0 <= i < table_rows TF tb) by (destruct a; try contradiction; exact B). assert (N' : ~ idle TF tb i) by (destruct a; try contradiction; exact N). clear B N.
  assert (P : In (tb, i) [(TType, 0); (TTile, 0); (TPlayer, 0); (TTsumogiri, 0); (TDuring, 0); (TPost, 0)] -> reached a tb i)
    by (intros I; apply reach_pad; destruct a; try contradiction; exact I).
  assert (C : forall own j, named own j = true -> In (tb, i) ([(TTile, Z.min 36 (j mod 128)); (TTsumogiri, 0); (TPosition, Z.of_nat 0)] ++ [if own then (TPost, j) else (TDuring, Z.min 70 j)]) -> reached a tb i).
  { intros own j M I. pose proof (some_call_legal _ _ M) as L. destruct (some_call_ok _ _ M) as (_ & O & A).
    apply (reach_event _ _ _ 0 0 _ ltac:(lia) ltac:(lia) L). intros t rows T E. rewrite (first_rows a 0 0 _ t Na ltac:(lia) L T), A, O in E. injection E as <-. exact I. }
  assert (D : forall x, 0 <= x < 37 -> In (tb, i) [(TPlayer, 0); (TTsumogiri, 0); (TPosition, Z.of_nat 0); (TDuring, x); (TPost, x)] -> reached a tb i).
  { intros x X I. apply (reach_event _ _ _ 0 0 (EvDora x)); [lia|lia|cbn; lia|]. intros t rows T E. rewrite (first_rows a 0 0 (EvDora x) t Na ltac:(lia) ltac:(cbn; lia) T) in E. injection E as <-. exact I. }
  assert (K : forall x, 0 <= x < 37 -> In (tb, i) [(TPosition, Z.of_nat 0); (TDuring, 70); (TPost, Z.min 153 (128 + x))] -> reached a tb i).
  { intros x X I. apply (reach_event _ _ _ 0 0 (EvDiscard 0 x true)); [lia|lia|cbn; lia|]. intros t rows T E. rewrite (first_rows a 0 0 (EvDiscard 0 x true) t Na ltac:(lia) ltac:(cbn; lia) T) in E. injection E as <-. exact I. }
  assert (Ri : forall pos, (pos < 150)%nat -> In (tb, i) [(TTile, 2); (TTsumogiri, 0); (TPosition, Z.of_nat pos); (TDuring, 2); (TPost, 2)] -> reached a tb i).
  { intros pos Hp I. apply (reach_event _ _ _ 0 pos (EvRiichi 0)); [lia|lia|cbn; lia|]. intros t rows T E. rewrite (first_rows a 0 pos (EvRiichi 0) t Na Hp ltac:(cbn; lia) T) in E. injection E as <-. exact I. }
  destruct tb; cbn [table_rows idle] in B', N'.
  - assert (i = 0) as -> by lia. apply P. cbn; tauto.
  - assert (i = 0 \/ i = 1 \/ i = 2 \/ 3 <= i) as [->|[->|[->|H]]] by lia.
    + apply P. cbn; tauto.
    + apply (C false 129); [reflexivity|]. cbn; tauto.
    + apply (Ri 0%nat); [lia|]. cbn; tauto.
    + apply (C true i); [apply named_spec; lia|]. rewrite (Z.mod_small i 128), (Z.min_r 36 i) by lia. cbn; tauto.
  - assert (i = 0) as -> by lia. apply P. cbn; tauto.
  - assert (i = 0) as -> by lia. apply P. cbn; tauto.
  - apply (Ri (Z.to_nat i)); [lia|]. rewrite Z2Nat.id by lia. cbn; tauto.
  - assert (i < 37 \/ i = 70 \/ 37 <= i < 65 \/ 68 <= i < 70) as [H|[->|H]] by lia.
    + apply (D i); [lia|]. cbn; tauto.
    + apply (K 0); [lia|]. cbn; tauto.
    + apply (C false i); [|rewrite (Z.min_r 70 i) by lia; cbn; tauto]. apply named_spec. split; [lia|]. unfold nameless. cbn [In]. lia.
  - assert (i < 37 \/ 37 <= i <= 70 \/ 128 <= i) as [H|[H|H]] by lia.
    + apply (D i); [lia|]. cbn; tauto.
    + apply (C true i); [apply named_spec; lia|]. cbn; tauto.
    + apply (K (i - 128)); [lia|]. replace (128 + (i - 128)) with i by lia. rewrite (Z.min_r 153 i) by lia. cbn; tauto.
Qed.

(** The rows that can be part of the input are all but the idle ones. *)
Theorem C127_reached : forall a tb i, reached a tb i <-> 0 <= i < table_rows a tb /\ ~ idle a tb i.
Proof.
  intros a tb i. split.
  - destruct a; try (apply reached_first; discriminate). apply reached_ordered.
  - intros [B N]. destruct a; try (apply first_reached; [discriminate|exact B|exact N]). apply ordered_reached; [exact B|exact N].
Qed.
Print Assumptions C127_reached.

(** Weights in idle rows have no effect. *)
Theorem C127_no_effect : forall a w1 w2 player pos t,
  (forall tb i d, 0 <= i < table_rows a tb -> ~ idle a tb i -> row_of w1 (tb, i) d = row_of w2 (tb, i) d) ->
  0 <= player < 4 -> (pos < 150)%nat -> real_token t ->
  exists x1 x2, embed a w1 player pos t = Ok x1 /\ embed a w2 player pos t = Ok x2 /\ forall d, x1 d = x2 d.
Proof.
  intros a w1 w2 player pos t W Pl Hp R. unfold embed.
  assert (X : exists rows, encode_token a player pos t = Ok rows).
  { destruct R as [->|(e & L & T)]; [eexists; exact (pad_rows a player pos Hp)|].
    destruct a; (eexists; first [exact (ordered_rows player pos e t Hp L T)|refine (first_rows _ player pos e t _ Hp L T); discriminate]). }
  destruct X as (rows & X). rewrite X. cbn [bind]. eexists _, _. split; [reflexivity|]. split; [reflexivity|]. intros d.
  assert (F : forall k, In k rows -> row_of w1 k d = row_of w2 k d).
  { intros [tb i] I. assert (Q : reached a tb i) by (exists player, pos, t, rows; auto). apply C127_reached in Q. apply W; tauto. }
  clear X. induction rows as [|k rows IH]; [reflexivity|]. rewrite !row_sum_cons. rewrite (F k (or_introl eq_refl)), IH; [reflexivity|]. intros k' I. apply F. right. exact I.
Qed.
Print Assumptions C127_no_effect.

(** Every other trainable row has: one can change its weights so that every coordinate of
    some input changes. *)
Theorem C127_effect : forall a tb i, trainable tb = true -> 0 <= i < table_rows a tb -> ~ idle a tb i ->
  exists w player pos t x0 x1, (forall tb' i' d, (tb', i') <> (tb, i) -> row_of w (tb', i') d = row_of zero (tb', i') d) /\
    0 <= player < 4 /\ (pos < 150)%nat /\ real_token t /\ embed a zero player pos t = Ok x0 /\ embed a w player pos t = Ok x1 /\ forall d, x0 d <> x1 d.
Proof.
  intros a tb i Tr B N. destruct (proj2 (C127_reached a tb i) (conj B N)) as (player & pos & t & rows & Pl & Hp & R & E & I).
  exists (probe tb i), player, pos, t. unfold embed. rewrite E. cbn [bind]. eexists _, _. split.
  { intros tb' i' d Ne. destruct tb'; cbn [row_of fst snd probe zero w_type w_tile w_tsumogiri w_during w_post]; try reflexivity;
      destruct tb; cbn [table_eqb andb]; try reflexivity; destruct (Z.eqb_spec i i') as [->|]; try reflexivity; now contradiction Ne. }
  split; [exact Pl|]. split; [exact Hp|]. split; [exact R|]. split; [reflexivity|]. split; [reflexivity|]. intros d. rewrite (probe_sum tb i rows d Tr).
  assert (U : 0 < uses tb i rows).
  { assert (G : forall l, 0 <= uses tb i l) by (induction l as [|[u j] l IH]; cbn [uses]; [lia|destruct (table_eqb tb u && (i =? j)); lia]).
    clear E. induction rows as [|[u j] rows IH]; [destruct I|]. cbn [uses]. destruct I as [I|I].
    - injection I as -> ->. rewrite Z.eqb_refl. specialize (G rows). destruct tb; cbn [table_eqb andb]; lia.
    - specialize (IH I). destruct (table_eqb tb u && (i =? j)); lia. }
  apply IZR_lt in U. intros Q. assert (IZR (uses tb i rows) = 0%R) by lra. lra.
Qed.
Print Assumptions C127_effect.

(** Non-vacuity: the row of the type discard is idle in the ordered agent, the last row
    for calls is not; the row of the tile 5 is reached in all agents. *)
Example C127_example : idle ORDERED TType 0 /\ reached ORDERED TPost 153 /\ (forall a, reached a TTile 4) /\ idle TF TPost 100.
Proof.
  split; [reflexivity|]. split; [apply C127_reached; cbn; lia|]. split; [|cbn; lia]. intros a. apply C127_reached. destruct a; cbn; lia.
Qed.
