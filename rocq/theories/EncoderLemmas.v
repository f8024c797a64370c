(** Proofs about the token embedding. *)
From Coq Require Import ZArith List Bool Lia String.
From Verif Require Import Base Constants Naki Tokens SpecMeld SpecTokens NakiProofs NakiLemmas NakiCore NakiLemmas2 TokensLemmas VecLemmas RoundLemmas Tensor Encoder.
Import ListNotations.
Open Scope Z_scope.

Lemma land_range x m : 0 <= m -> 0 <= Z.land x (Z.ones m) < 2 ^ m.
Proof. intros H. rewrite Z.land_ones by exact H. apply Z.mod_pos_bound. now apply Z.pow_pos_nonneg. Qed.
Lemma field_ranges t : 0 <= embedding_type t < 8 /\ 0 <= player_idx t < 4 /\ 0 <= tile_encoding t < 128 /\ 0 <= tsumogiri t < 2 /\ 0 <= naki_idx t < 256.
Proof.
  split; [exact (land_range (Z.shiftr t 10) 3 ltac:(lia))|]. split; [exact (land_range (Z.shiftr t 8) 2 ltac:(lia))|].
  split; [exact (land_range t 7 ltac:(lia))|]. split; [exact (land_range (Z.shiftr t 7) 1 ltac:(lia))|]. exact (land_range t 8 ltac:(lia)).
Qed.

(** ** Which tokens can be embedded *)
Lemma in_rows l : forall a, forallb (fun k => (0 <=? lk_index k) && (lk_index k <? table_rows a (lk_table k))) l = true <->
  Forall (fun k => 0 <= lk_index k < table_rows a (lk_table k)) l.
Proof.
  intros a. rewrite forallb_forall, Forall_forall. split; intros H k I; specialize (H k I).
  - apply andb_prop in H as [A B]. apply Z.leb_le in A. apply Z.ltb_lt in B. lia.
  - apply andb_true_intro. split; [apply Z.leb_le|apply Z.ltb_lt]; lia.
Qed.
Lemma lookups_range a player pos t : (pos < 150)%nat ->
  Forall (fun k => 0 <= lk_index k < table_rows a (lk_table k)) (lookups a player pos t) <-> embedding_type t <= 4.
Proof.
  intros Hp. pose proof (field_ranges t) as (H1 & H2 & H3 & H4 & H5). split.
  - intros F. assert (Q : 0 <= Z.max 0 (embedding_type t - 1) < 4) by (destruct a; exact (Forall_inv F)). lia.
  - intros Ht. pose proof (Z.mod_pos_bound (player_idx t - player) 4 eq_refl).
    destruct a; cbn [lookups]; repeat (apply Forall_cons; [cbn [lk_index lk_table table_rows]; lia|]); apply Forall_nil.
Qed.
Lemma encode_token_total a player pos t : (pos < 150)%nat ->
  (embedding_type t <= 4 /\ encode_token a player pos t = Ok (map (fun k => (lk_table k, lk_index k)) (filter lk_on (lookups a player pos t)))) \/
  (4 < embedding_type t /\ encode_token a player pos t = Err IndexError).
Proof.
  intros Hp. pose proof (lookups_range a player pos t Hp) as Q. rewrite <- in_rows in Q. unfold encode_token.
  destruct (forallb _ _) eqn:E.
  - left. split; [now apply Q|reflexivity].
  - right. split; [|reflexivity]. destruct (Z.le_gt_cases (embedding_type t) 4) as [H|H]; [|exact H]. apply Q in H. discriminate H.
Qed.

(** Rows with only such tokens can be embedded. *)
Lemma combine_seq_in {A} (l : list A) : forall n j x, In (j, x) (combine (seq n (List.length l)) l) -> (n <= j < n + List.length l)%nat /\ In x l.
Proof.
  induction l as [|y l IH]; intros n j x H; [destruct H|]. cbn [List.length seq combine In] in *. destruct H as [H|H].
  - injection H as <- <-. split; [lia|now left].
  - apply IH in H as [A1 A2]. split; [lia|now right].
Qed.
Lemma encode_row_total a player row : (List.length row <= 150)%nat -> Forall (fun t => embedding_type t <= 4) row -> exists r, encode_row a player row = Ok r.
Proof.
  intros L F. unfold encode_row.
  assert (G : Forall (fun p : nat * Z => exists y, encode_token a player (fst p) (snd p) = Ok y) (enumerate row)).
  { apply Forall_forall. intros [j t] I. apply combine_seq_in in I as [I1 I2]. rewrite Forall_forall in F. specialize (F t I2). cbn [fst snd].
    destruct (encode_token_total a player j t ltac:(lia)) as [[_ E]|[E _]]; [eauto|lia]. }
  revert G. generalize (enumerate row). clear. intros l G. induction G as [|p l (y & E) _ (ys & IH)]; [exists []; reflexivity|].
  cbn [mapM]. rewrite E, IH. cbn [bind]. eauto.
Qed.

(** ** The fields of event tokens *)
(** Action numbers never reach the type bits, whatever the code. *)
Definition idx_small_check (r : Z) : bool :=
  match get_during_turn_filter_idx r with Ok i => (0 <=? i) && (i <? 256) | Err _ => true end &&
  match get_post_turn_filter_idx r with Ok i => (0 <=? i) && (i <? 256) | Err _ => true end.
Lemma idx_small_sweep : sweep 16 idx_small_check = true.
Proof. vm_cast_no_check (eq_refl true). Qed.
Lemma idx_small c i : get_during_turn_filter_idx c = Ok i \/ get_post_turn_filter_idx c = Ok i -> 0 <= i < 256.
Proof.
  intros H. pose proof (sweep16 _ idx_small_sweep (lo c) (lo_range c)) as S. unfold idx_small_check in S. apply andb_prop in S as [S1 S2].
  rewrite <- during_idx_lo in S1. rewrite <- post_idx_lo in S2.
  destruct H as [H|H]; rewrite H in *; [apply andb_prop in S1 as [A B]|apply andb_prop in S2 as [A B]]; apply Z.leb_le in A; apply Z.ltb_lt in B; lia.
Qed.

Definition who_ok (e : pub_event) : Prop := match e with EvDiscard w _ _ => 0 <= w < 4 | _ => True end.
Lemma token_parts e tok : who_ok e -> token e = Ok tok ->
  exists st ty w i, tok = tok_or st ty w i /\ 1 <= st < 5 /\ 1 <= ty <= 4 /\ 0 <= w < 4 /\ 0 <= i < 256.
Proof.
  destruct e as [who tile ts|who c|who|tile]; cbn [who_ok token]; intros L E.
  - assert (Ht : 0 <= tile < 37).
    { unfold discard2idx in E. apply bind_ok in E as (u & E & _). apply passert_ok in E. apply andb_prop in E as [A B]. apply Z.leb_le in A. apply Z.ltb_lt in B. lia. }
    rewrite discard_tok in E by assumption. injection E as <-. exists EST_DISCARD, ET_NAKI, who, (128 * b2z ts + tile).
    unfold EST_DISCARD, ET_NAKI. destruct ts; cbn [b2z]; repeat split; lia.
  - unfold naki2idx in E. apply bind_ok in E as (u & Ew & E). apply passert_ok in Ew. apply andb_prop in Ew as [A B]. apply Z.leb_le in A. apply Z.ltb_lt in B.
    apply bind_ok in E as (t & Et & E). apply bind_ok in E as (u2 & _ & E). apply Ok_inj in E. subst t.
    assert (G : forall st g, (st = EST_POST \/ st = EST_DURING) -> (g = get_during_turn_filter_idx c \/ g = get_post_turn_filter_idx c) ->
       (i <- g ;; Ok (tok_or st ET_NAKI who i)) = Ok tok -> exists st ty w i, tok = tok_or st ty w i /\ 1 <= st < 5 /\ 1 <= ty <= 4 /\ 0 <= w < 4 /\ 0 <= i < 256).
    { intros st g Hs Hg H. apply bind_ok in H as (i & Ei & H). apply Ok_inj in H. exists st, ET_NAKI, who, i. split; [now symmetry|].
      assert (0 <= i < 256) by (apply (idx_small c); destruct Hg as [-> | ->]; auto). unfold ET_NAKI. destruct Hs as [-> | ->]; unfold EST_POST, EST_DURING; repeat split; lia. }
    destruct (is_chi c); [eapply G; [| |exact Et]; auto|]. destruct (is_pon c); [eapply G; [| |exact Et]; auto|].
    destruct (is_kakan c); [eapply G; [| |exact Et]; auto|]. destruct (is_minkan c); [eapply G; [| |exact Et]; auto|].
    destruct (is_ankan c); [eapply G; [| |exact Et]; auto|discriminate Et].
  - unfold reach2idx in E. apply bind_ok in E as (u & Ew & E). apply passert_ok in Ew. apply andb_prop in Ew as [A B]. apply Z.leb_le in A. apply Z.ltb_lt in B.
    apply bind_ok in E as (u2 & _ & E). apply Ok_inj in E. exists EST_DURING, ET_RIICHI, who, 2. unfold EST_DURING, ET_RIICHI in *. repeat split; auto; lia.
  - assert (Ht : 0 <= tile < 37).
    { unfold new_dora2idx in E. apply bind_ok in E as (u & E & _). apply passert_ok in E. apply andb_prop in E as [A B]. apply Z.leb_le in A. apply Z.ltb_lt in B. lia. }
    destruct (token_inv (EvDora tile) tok Ht E) as (st & ty & w & i & -> & _ & _ & _ & Hi & -> & -> & -> & _). exists 4, 4, 0, i. repeat split; try lia.
Qed.

Lemma parts st ty w i : 1 <= st < 5 -> 1 <= ty <= 4 -> 0 <= w < 4 -> 0 <= i < 256 ->
  event_type (tok_or st ty w i) = st /\ embedding_type (tok_or st ty w i) = ty /\ player_idx (tok_or st ty w i) = w /\
  naki_idx (tok_or st ty w i) = i /\ tile_encoding (tok_or st ty w i) = i mod 128 /\ tsumogiri (tok_or st ty w i) = i / 128.
Proof.
  intros H1 H2 H3 H4. destruct (tok_fields st ty w i) as (_ & A1 & A2 & A3 & A4 & A5 & A6); try lia. repeat split; assumption.
Qed.
Lemma token_embeds e tok : who_ok e -> token e = Ok tok -> embedding_type tok <= 4.
Proof.
  intros L E. destruct (token_parts e tok L E) as (st & ty & w & i & -> & H1 & H2 & H3 & H4). destruct (parts st ty w i H1 H2 H3 H4) as (_ & -> & _). lia.
Qed.

(** ** The rows used for each event *)
Lemma call_index c i : in_range c -> call_action c = Ok i -> if own_turn_call c then 3 <= i <= 70 else 2 <= i <= 153.
Proof.
  intros R H. unfold call_action, own_turn_call in *. destruct (spec_kind c) as [k|] eqn:Hk; [|unfold in_range in R; rewrite Hk in R; destruct R].
  pose proof (action_index c k R Hk) as A. destruct k; destruct A as [(j & Ej & Bj) _]; rewrite Ej in H; injection H as <-; exact Bj.
Qed.
Lemma ordered_rows player pos e tok : (pos < 150)%nat -> legal_event e -> token e = Ok tok ->
  encode_token ORDERED player pos tok = Ok match e with
   | EvDiscard who tile ts => [(TType, 1); (TTile, tile); (TPlayer, (who - player) mod 4)] ++ (if ts then [(TTsumogiri, 1)] else []) ++ [(TPosition, Z.of_nat pos)]
   | EvCall who c => [(TType, 1); (TPlayer, (who - player) mod 4); (TPosition, Z.of_nat pos)] ++
        match call_action c with Ok i => [(if own_turn_call c then TDuring else TPost, i)] | Err _ => [] end
   | EvRiichi who => [(TType, 2); (TPlayer, (who - player) mod 4); (TPosition, Z.of_nat pos)]
   | EvDora tile => [(TType, 3); (TTile, tile); (TPosition, Z.of_nat pos)]
   end.
Proof.
  intros Hp L E. destruct (token_inv e tok L E) as (st & ty & w & i & -> & H1 & H2 & H3 & H4 & D).
  assert (Hs : 1 <= st < 5 /\ 1 <= ty <= 4) by (destruct e; destruct D as (-> & -> & _); try destruct (own_turn_call _); lia).
  destruct Hs as [Hs Hy]. destruct (parts st ty w i Hs Hy H3 H4) as (P1 & P2 & P3 & P4 & P5 & P6).
  destruct (encode_token_total ORDERED player pos (tok_or st ty w i) Hp) as [[_ Q]|[Q _]]; [|lia]. rewrite Q. f_equal. unfold lookups. rewrite P1, P2, P3, P4, P5, P6. clear Q P1 P2 P3 P4 P5 P6 E.
  destruct e as [who tile ts|who c|who|tile]; cbn [legal_event] in L; destruct D as (-> & -> & -> & Ei).
  - assert (Em : i mod 128 = tile) by (subst i; rewrite Z.add_comm, Z.mul_comm, Z.mod_add by lia; apply Z.mod_small; lia).
    assert (Ed : i / 128 = b2z ts) by (subst i; rewrite Z.add_comm, Z.mul_comm, Z.div_add by lia; rewrite Z.div_small by lia; lia).
    rewrite Em, Ed, (Z.min_r 36 tile) by lia. destruct ts; reflexivity.
  - pose proof (call_index c i (proj2 L) Ei) as Bi. rewrite Ei. destruct (own_turn_call c).
    + rewrite (Z.min_r 70 i) by lia. cbn [filter lk_on map lk_table lk_index]. change (2 =? EST_EMPTY) with false. change (2 =? EST_DISCARD) with false. change (2 =? EST_NEW_DORA) with false.
      change (2 =? EST_DURING) with true. change (2 =? EST_POST) with false. cbn [negb orb andb]. replace (3 <=? i) with true by (symmetry; apply Z.leb_le; lia). reflexivity.
    + rewrite (Z.min_r 153 i) by lia. cbn [filter lk_on map lk_table lk_index]. change (3 =? EST_EMPTY) with false. change (3 =? EST_DISCARD) with false. change (3 =? EST_NEW_DORA) with false.
      change (3 =? EST_DURING) with false. change (3 =? EST_POST) with true. cbn [negb orb andb]. replace (2 <=? i) with true by (symmetry; apply Z.leb_le; lia). reflexivity.
  - subst i. reflexivity.
  - subst i. rewrite (Z.mod_small tile 128), (Z.min_r 36 tile) by lia. reflexivity.
Qed.
Lemma first_rows a player pos e tok : a <> ORDERED -> (pos < 150)%nat -> legal_event e -> token e = Ok tok ->
  encode_token a player pos tok = Ok match e with
   | EvDiscard who tile ts => (if ts then [] else [(TTsumogiri, 0)]) ++ [(TPosition, Z.of_nat pos); (TDuring, if ts then 70 else tile); (TPost, if ts then Z.min 153 (128 + tile) else tile)]
   | EvCall who c => match call_action c with
        | Ok i => [(TTile, Z.min 36 (i mod 128)); (TTsumogiri, 0); (TPosition, Z.of_nat pos)] ++ [if own_turn_call c then (TPost, i) else (TDuring, Z.min 70 i)]
        | Err _ => [] end
   | EvRiichi who => [(TTile, 2); (TTsumogiri, 0); (TPosition, Z.of_nat pos); (TDuring, 2); (TPost, 2)]
   | EvDora tile => [(TPlayer, 0); (TTsumogiri, 0); (TPosition, Z.of_nat pos); (TDuring, tile); (TPost, tile)]
   end.
Proof.
  intros Na Hp L E. destruct (token_inv e tok L E) as (st & ty & w & i & -> & H1 & H2 & H3 & H4 & D).
  assert (Hs : 1 <= st < 5 /\ 1 <= ty <= 4) by (destruct e; destruct D as (-> & -> & _); try destruct (own_turn_call _); lia).
  destruct Hs as [Hs Hy]. destruct (parts st ty w i Hs Hy H3 H4) as (P1 & P2 & P3 & P4 & P5 & P6).
  destruct (encode_token_total a player pos (tok_or st ty w i) Hp) as [[_ Q]|[Q _]]; [|lia]. rewrite Q. f_equal.
  replace (lookups a player pos (tok_or st ty w i)) with (lookups TF player pos (tok_or st ty w i)) by (destruct a; [reflexivity|reflexivity|reflexivity|now contradiction Na]).
  unfold lookups. rewrite P1, P2, P3, P4, P5, P6. clear Q P1 P2 P3 P4 P5 P6 E.
  destruct e as [who tile ts|who c|who|tile]; cbn [legal_event] in L; destruct D as (-> & -> & -> & Ei).
  - assert (Em : i mod 128 = tile) by (subst i; rewrite Z.add_comm, Z.mul_comm, Z.mod_add by lia; apply Z.mod_small; lia).
    assert (Ed : i / 128 = b2z ts) by (subst i; rewrite Z.add_comm, Z.mul_comm, Z.div_add by lia; rewrite Z.div_small by lia; lia).
    rewrite Em, Ed. destruct ts; cbn [b2z] in *.
    + rewrite (Z.min_l 70 i) by lia. replace i with (128 + tile) by lia. reflexivity.
    + rewrite (Z.min_r 70 i), (Z.min_r 153 i) by lia. replace i with tile by lia. reflexivity.
  - pose proof (call_index c i (proj2 L) Ei) as Bi. rewrite Ei. destruct (own_turn_call c).
    + rewrite (Z.min_r 153 i) by lia. cbn [filter lk_on map lk_table lk_index]. change (2 =? EST_EMPTY) with false. change (2 =? EST_DISCARD) with false. change (2 =? EST_NEW_DORA) with false.
      change (2 =? EST_DURING) with true. change (2 =? EST_POST) with false. cbn [negb orb andb]. replace (i <? 3) with false by (symmetry; apply Z.ltb_ge; lia). reflexivity.
    + cbn [filter lk_on map lk_table lk_index]. change (3 =? EST_EMPTY) with false. change (3 =? EST_DISCARD) with false. change (3 =? EST_NEW_DORA) with false.
      change (3 =? EST_DURING) with false. change (3 =? EST_POST) with true. cbn [negb orb andb]. replace (i <? 2) with false by (symmetry; apply Z.ltb_ge; lia). reflexivity.
  - subst i. reflexivity.
  - subst i. rewrite (Z.min_r 70 tile), (Z.min_r 153 tile) by lia. reflexivity.
Qed.
