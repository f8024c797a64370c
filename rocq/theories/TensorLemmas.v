(** Lemmas about the sample builders. *)
From Coq Require Import ZArith List Bool Lia PeanoNat.
From Verif Require Import Base Constants Naki Decision Process SpecRound VecLemmas RoundLemmas Tensor SpecTensor.
Import ListNotations.
Open Scope Z_scope.

(** ** Tokens *)
Lemma pad_length tokens : List.length (pad_tokens tokens) = 150%nat.
Proof. unfold pad_tokens. rewrite app_length, firstn_length, repeat_length. lia. Qed.
Lemma nth_firstn_lt {A} (l : list A) n j d : (j < n)%nat -> nth j (firstn n l) d = nth j l d.
Proof. revert n j. induction l as [|x l IH]; intros [|n] [|j] H; cbn; try lia; try reflexivity. apply IH. lia. Qed.
Lemma pad_nth tokens j : (j < 150)%nat -> nth j (pad_tokens tokens) 0 = nth j tokens 0.
Proof.
  intros H. unfold pad_tokens. destruct (Nat.lt_ge_cases j (List.length tokens)) as [L|L].
  - rewrite app_nth1 by (rewrite firstn_length; lia). now apply nth_firstn_lt.
  - rewrite (nth_overflow tokens) by lia. rewrite app_nth2 by (rewrite firstn_length; lia). apply nth_repeat.
Qed.
Lemma token_row_ok tokens i r : 0 <= i -> token_row (pad_tokens tokens) i = Ok r -> tokens_before tokens i r /\ i < 150.
Proof.
  intros Hi H. unfold token_row in H. change MAX_SEQUENCE_LENGTH with 150 in H. destruct (Z.ltb_spec i 150); [|discriminate H]. cbn [passert bind] in H.
  apply Ok_inj in H. subst r. split; [|assumption].
  assert (L : List.length (firstn (Z.to_nat i) (pad_tokens tokens)) = Z.to_nat i) by (rewrite firstn_length, pad_length; lia).
  split; [rewrite app_length, L, repeat_length; lia|].
  intros j Hj. destruct (Z.ltb_spec (Z.of_nat j) i).
  - rewrite app_nth1 by lia. rewrite nth_firstn_lt by lia. now apply pad_nth.
  - rewrite app_nth2 by lia. apply nth_repeat.
Qed.
Lemma token_row_total padded i : i < 150 -> exists r, token_row padded i = Ok r.
Proof. intros H. unfold token_row. change MAX_SEQUENCE_LENGTH with 150. destruct (Z.ltb_spec i 150); [|lia]. eexists. reflexivity. Qed.

(** ** Masks *)
Lemma mask_ext n P Q m : (forall i, 0 <= i < n -> (P i <-> Q i)) -> mask_of n P m -> mask_of n Q m.
Proof. intros E [L H]. split; [exact L|]. intros i Hi. specialize (H i Hi). specialize (E i Hi). tauto. Qed.
Lemma mask_zeros n : mask_of (Z.of_nat n) (fun _ => False) (repeat 0 n).
Proof. split; [now rewrite repeat_length|]. intros i _. right. split; [apply nth_repeat|tauto]. Qed.

Lemma allow_ok n P m i m' : mask_of n P m -> 0 <= i < n -> allow m i = Ok m' -> mask_of n (fun j => P j \/ j = i) m'.
Proof.
  intros [L H] Hi E. unfold allow, py_index in E. rewrite L in E.
  destruct (Z.leb_spec 0 i), (Z.ltb_spec i n); try lia. cbn [andb bind] in E. apply Ok_inj in E. subst m'.
  split; [unfold vset; rewrite length_upd; exact L|]. intros j Hj. unfold vset.
  destruct (Z.eq_dec j i) as [->|N].
  - left. split; [|auto]. rewrite nth_upd. rewrite Nat.eqb_refl. destruct (Nat.ltb_spec (Z.to_nat i) (List.length m)); [reflexivity|lia].
  - rewrite nth_upd. destruct (Nat.eqb_spec (Z.to_nat i) (Z.to_nat j)); [lia|]. cbn [andb]. destruct (H j Hj) as [[A B]|[A B]]; [left; auto|right; split; [exact A|intros [?|?]; auto]].
Qed.
Lemma allow_total n P m i : mask_of n P m -> 0 <= i < n -> exists m', allow m i = Ok m'.
Proof.
  intros [L _] Hi. unfold allow, py_index. rewrite L. destruct (Z.leb_spec 0 i), (Z.ltb_spec i n); try lia. cbn. eauto.
Qed.

Lemma check_ok a n i : 0 <= i < Z.of_nat n -> check_idx a n i = Ok tt.
Proof. intros H. destruct a; try reflexivity. cbn [check_idx]. destruct (Z.leb_spec 0 i), (Z.ltb_spec i (Z.of_nat n)); try lia. reflexivity. Qed.

(** The mask after the calls [l], and the action taken among them. *)
Lemma during_calls_fold a l : forall P mask y, mask_of 71 P mask ->
  Forall (fun d => is_call d /\ exists i, during_action d i /\ 2 <= i < 71) l ->
  exists m y', foldM (during_calls a) (mask, y) l = Ok (m, y') /\
    mask_of 71 (fun j => P j \/ exists d, In d l /\ during_action d j) m /\ taken during_action y l y'.
Proof.
  induction l as [|d l IH]; intros P mask y M F.
  - exists mask, y. split; [reflexivity|]. split; [|right; split; [constructor|reflexivity]].
    eapply mask_ext; [|exact M]. intros i _. split; [auto|intros [?|(? & [] & _)]; assumption].
  - inversion F as [|? ? [Hc (i & Hi & Hr)] F']; subst. cbn [foldM]. destruct d as [p nk e| |]; try contradiction Hc.
    cbn [during_calls during_action] in *. rewrite Hi. cbn [bind]. rewrite check_ok by (change (Z.of_nat 71) with 71; lia). cbn [bind].
    destruct (allow_total _ _ _ i M ltac:(lia)) as (m1 & E). rewrite E. cbn [bind].
    apply (allow_ok _ _ _ i _ M ltac:(lia)) in E.
    destruct (IH _ m1 (if e then i else y) E F') as (m & y' & -> & M' & T). exists m, y'. split; [reflexivity|]. split.
    + eapply mask_ext; [|exact M']. intros j _. split.
      * intros [[?| ->]|(d & I & A)]; [auto|right; eexists; split; [left; reflexivity|exact Hi]|right; exists d; split; [now right|exact A]].
      * intros [?|(d & [<-|I] & A)]; [auto| |right; eauto]. cbn [during_action] in A. rewrite Hi in A. apply Ok_inj in A. auto.
    + destruct T as [(d & I & X & A)|[N ->]].
      * left. exists d. split; [now right|auto].
      * destruct e; [left; eexists; split; [left; reflexivity|split; [reflexivity|exact Hi]]|right; split; [constructor; [reflexivity|exact N]|reflexivity]].
Qed.

Lemma post_calls_fold a l : forall P mask y x, mask_of 154 P mask ->
  Forall (fun d => is_call d /\ exists i, post_action d i /\ 2 <= i < 154) l ->
  exists m y', foldM (post_calls a) (mask, y, x) l = Ok (m, y', x || existsb d_executed l) /\
    mask_of 154 (fun j => P j \/ exists d, In d l /\ post_action d j) m /\ taken post_action y l y'.
Proof.
  induction l as [|d l IH]; intros P mask y x M F.
  - exists mask, y. cbn [existsb]. rewrite orb_false_r. split; [reflexivity|]. split; [|right; split; [constructor|reflexivity]].
    eapply mask_ext; [|exact M]. intros i _. split; [auto|intros [?|(? & [] & _)]; assumption].
  - inversion F as [|? ? [Hc (i & Hi & Hr)] F']; subst. cbn [foldM]. destruct d as [p nk e| |]; try contradiction Hc.
    cbn [post_calls post_action] in *. rewrite Hi. cbn [bind]. rewrite check_ok by (change (Z.of_nat 154) with 154; lia). cbn [bind].
    destruct (allow_total _ _ _ i M ltac:(lia)) as (m1 & E). rewrite E. cbn [bind].
    apply (allow_ok _ _ _ i _ M ltac:(lia)) in E.
    destruct (IH _ m1 (if e then i else y) (x || e) E F') as (m & y' & -> & M' & T). exists m, y'. cbn [existsb d_executed]. rewrite orb_assoc. split; [reflexivity|]. split.
    + eapply mask_ext; [|exact M']. intros j _. split.
      * intros [[?| ->]|(d & I & A)]; [auto|right; eexists; split; [left; reflexivity|exact Hi]|right; exists d; split; [now right|exact A]].
      * intros [?|(d & [<-|I] & A)]; [auto| |right; eauto]. cbn [post_action] in A. rewrite Hi in A. apply Ok_inj in A. auto.
    + destruct T as [(d & I & X & A)|[N ->]].
      * left. exists d. split; [now right|auto].
      * destruct e; [left; eexists; split; [left; reflexivity|split; [reflexivity|exact Hi]]|right; split; [constructor; [reflexivity|exact N]|reflexivity]].
Qed.

Lemma allow_step n P m i : mask_of n P m -> 0 <= i < n -> exists m', allow m i = Ok m' /\ mask_of n (fun j => P j \/ j = i) m'.
Proof. intros M H. destruct (allow_total _ _ _ i M H) as (m' & E). exists m'. split; [exact E|]. exact (allow_ok _ _ _ i _ M H E). Qed.

Lemma single (P : decision -> Prop) l : (List.length l <= 1)%nat -> Forall P l -> l = [] \/ exists d, l = [d] /\ P d.
Proof. destruct l as [|d [|]]; cbn; intros H F; [auto|right; exists d; inversion F; auto|lia]. Qed.

Lemma during_lists a ds : proper during_action 71 ds ->
  exists m0 m y, allow (repeat 0 71) 0 = Ok m0 /\ foldM (during_type a) (m0, 0) (enumerate ds) = Ok (m, y) /\
    mask_of 71 (fun i => i = 0 \/ exists d, In d (List.concat ds) /\ during_action d i) m /\ taken during_action 2 (nth 2 ds []) y.
Proof.
  intros (w & r & c & -> & Lw & Lr & Fw & Fr & Fc).
  destruct (allow_step 71 _ _ 0 (mask_zeros 71) ltac:(lia)) as (m0 & E0 & M0). exists m0.
  change (enumerate [w; r; c]) with [(0%nat, w); (1%nat, r); (2%nat, c)]. cbn [nth List.concat]. rewrite app_nil_r.
  assert (S1 : exists m1 y1, during_type a (m0, 0) (0%nat, w) = Ok (m1, y1) /\ mask_of 71 (fun i => i = 0 \/ exists d, In d w /\ during_action d i) m1).
  { destruct (single _ _ Lw Fw) as [->|(d & -> & Hd)].
    - exists m0, 0. split; [reflexivity|]. eapply mask_ext; [|exact M0]. intros i _. split; [intros [[]|?]; auto|intros [?|(? & [] & _)]; auto].
    - destruct d as [| |p e]; try contradiction Hd. cbn [during_type].
      destruct (allow_step _ _ _ 0 M0 ltac:(lia)) as (m1 & -> & M1). cbn [bind]. change (Nat.eqb 0 DECISION_AGARI_IDX) with true. cbv iota.
      destruct (allow_step _ _ _ 1 M1 ltac:(lia)) as (m2 & -> & M2). cbn [bind]. exists m2. eexists. split; [reflexivity|].
      eapply mask_ext; [|exact M2]. intros i _. split; [intros [[[[]|?]|?]|?]; auto; right; eexists; split; [left; reflexivity|assumption]|].
      intros [?|(x & [<-|[]] & A)]; [auto|right; exact A]. }
  destruct S1 as (m1 & y1 & E1 & M1).
  assert (S2 : exists m2 y2, during_type a (m1, y1) (1%nat, r) = Ok (m2, y2) /\ mask_of 71 (fun i => (i = 0 \/ exists d, In d w /\ during_action d i) \/ exists d, In d r /\ during_action d i) m2).
  { destruct (single _ _ Lr Fr) as [->|(d & -> & Hd)].
    - exists m1, 1. split; [reflexivity|]. eapply mask_ext; [|exact M1]. intros i _. split; [auto|intros [?|(? & [] & _)]; auto].
    - destruct d as [|p e|]; try contradiction Hd. cbn [during_type].
      destruct (allow_step _ _ _ 0 M1 ltac:(lia)) as (m2 & -> & M2). cbn [bind].
      change (Nat.eqb 1 DECISION_AGARI_IDX) with false. change (Nat.eqb 1 DECISION_REACH_IDX) with true. cbv iota.
      destruct (allow_step _ _ _ 2 M2 ltac:(lia)) as (m3 & -> & M3). cbn [bind]. exists m3. eexists. split; [reflexivity|].
      eapply mask_ext; [|exact M3]. intros i _. split; [intros [[[?|?]|?]|?]; auto; right; eexists; split; [left; reflexivity|assumption]|].
      intros [[?|?]|(x & [<-|[]] & A)]; [auto|auto|right; exact A]. }
  destruct S2 as (m2 & y2 & E2 & M2).
  assert (S3 : exists m3 y3, during_type a (m2, y2) (2%nat, c) = Ok (m3, y3) /\
     mask_of 71 (fun i => ((i = 0 \/ exists d, In d w /\ during_action d i) \/ exists d, In d r /\ during_action d i) \/ exists d, In d c /\ during_action d i) m3 /\
     taken during_action 2 c y3).
  { destruct c as [|d c].
    - exists m2, 2. split; [reflexivity|]. split; [|right; split; [constructor|reflexivity]].
      eapply mask_ext; [|exact M2]. intros i _. split; [auto|intros [?|(? & [] & _)]; auto].
    - cbn [during_type]. destruct (allow_step _ _ _ 0 M2 ltac:(lia)) as (m3 & -> & M3). cbn [bind].
      change (Nat.eqb 2 DECISION_AGARI_IDX) with false. change (Nat.eqb 2 DECISION_REACH_IDX) with false. change (Nat.eqb 2 DECISION_NAKI_IDX) with true. cbv iota.
      change (Z.of_nat 2) with 2.
      destruct (during_calls_fold a (d :: c) _ m3 2 M3 Fc) as (m4 & y4 & -> & M4 & T). exists m4, y4. split; [reflexivity|]. split; [|exact T].
      eapply mask_ext; [|exact M4]. intros i _. tauto. }
  destruct S3 as (m3 & y3 & E3 & M3 & T). exists m3, y3. split; [exact E0|]. split; [cbn [foldM]; rewrite E1; cbn [bind]; rewrite E2; cbn [bind]; rewrite E3; reflexivity|].
  split; [|exact T]. eapply mask_ext; [|exact M3]. intros i _. split.
  - intros [[[?|(d & I & A)]|(d & I & A)]|(d & I & A)]; [auto|right; exists d; rewrite !in_app_iff; auto..].
  - intros [?|(d & I & A)]; [auto|]. rewrite !in_app_iff in I. destruct I as [I|[I|I]]; eauto 6.
Qed.

Lemma taken_app act a b c l1 l2 : taken act a l1 b -> taken act b l2 c -> taken act a (l1 ++ l2) c.
Proof.
  intros H [(d & I & X & A)|[N ->]]; [left; exists d; rewrite in_app_iff; auto|].
  destruct H as [(d & I & X & A)|[N' ->]]; [left; exists d; rewrite in_app_iff; auto|right; split; [apply Forall_app; auto|reflexivity]].
Qed.

Lemma post_lists a ds : proper post_action 154 ds ->
  exists m y, foldM (post_type a) (repeat 0 154, 0, false) (enumerate ds) = Ok (m, y, existsb d_executed (List.concat ds)) /\
    mask_of 154 (fun i => exists d, In d (List.concat ds) /\ (i = 0 \/ post_action d i)) m /\ taken post_action 0 (List.concat ds) y.
Proof.
  intros (w & r & c & -> & Lw & Lr & Fw & Fr & Fc).
  change (enumerate [w; r; c]) with [(0%nat, w); (1%nat, r); (2%nat, c)]. cbn [List.concat]. rewrite app_nil_r.
  pose proof (mask_zeros 154) as M0. change (Z.of_nat 154) with 154 in M0. remember (repeat 0 154) as m0 eqn:E0. clear E0.
  assert (S1 : exists m1 y1, post_type a (m0, 0, false) (0%nat, w) = Ok (m1, y1, existsb d_executed w) /\
     mask_of 154 (fun i => exists d, In d w /\ (i = 0 \/ post_action d i)) m1 /\ taken post_action 0 w y1).
  { destruct (single _ _ Lw Fw) as [->|(d & -> & Hd)].
    - exists m0, 0. split; [reflexivity|]. split; [|right; split; [constructor|reflexivity]].
      eapply mask_ext; [|exact M0]. intros i _. split; [intros []|intros (? & [] & _)].
    - destruct d as [| |p e]; try contradiction Hd. cbn [post_type].
      destruct (allow_step _ _ _ 0 M0 ltac:(lia)) as (m1 & -> & M1). cbn [bind]. change (Nat.eqb 0 DECISION_AGARI_IDX) with true. cbv iota.
      destruct (allow_step _ _ _ 1 M1 ltac:(lia)) as (m2 & -> & M2). cbn [bind d_executed existsb]. rewrite orb_false_r. exists m2. eexists. split; [reflexivity|]. split.
      + eapply mask_ext; [|exact M2]. intros i _. split; [intros [[[]|?]|?]; eexists; (split; [left; reflexivity|]); auto|].
        intros (x & [<-|[]] & [?|A]); [auto|right; exact A].
      + destruct e; [left; eexists; split; [left; reflexivity|split; reflexivity]|right; split; [repeat constructor|reflexivity]]. }
  destruct S1 as (m1 & y1 & E1 & M1 & T1). remember (existsb d_executed w) as x1 eqn:Ex.
  assert (S2 : exists m2 y2, post_type a (m1, y1, x1) (1%nat, r) = Ok (m2, y2, x1 || existsb d_executed r) /\
     mask_of 154 (fun i => exists d, In d (w ++ r) /\ (i = 0 \/ post_action d i)) m2 /\ taken post_action y1 r y2).
  { destruct (single _ _ Lr Fr) as [->|(d & -> & Hd)].
    - exists m1, y1. rewrite app_nil_r. cbn [existsb]. rewrite orb_false_r. split; [reflexivity|]. split; [exact M1|right; split; [constructor|reflexivity]].
    - destruct d as [|p e|]; try contradiction Hd. cbn [post_type].
      destruct (allow_step _ _ _ 0 M1 ltac:(lia)) as (m2 & -> & M2). cbn [bind].
      change (Nat.eqb 1 DECISION_AGARI_IDX) with false. change (Nat.eqb 1 DECISION_REACH_IDX) with true. cbv iota.
      destruct (allow_step _ _ _ 2 M2 ltac:(lia)) as (m3 & -> & M3). cbn [bind d_executed existsb]. rewrite orb_false_r. exists m3. eexists. split; [reflexivity|]. split.
      + eapply mask_ext; [|exact M3]. intros i _. split.
        * intros [[(d & I & A)|?]|?]; [exists d; rewrite in_app_iff; auto|eexists; rewrite in_app_iff; (split; [right; left; reflexivity|]); auto..].
        * intros (x & I & A). apply in_app_iff in I as [I|[<-|[]]]; [eauto|]. destruct A as [?|A]; [auto|right; exact A].
      + destruct e; [left; eexists; split; [left; reflexivity|split; reflexivity]|right; split; [repeat constructor|reflexivity]]. }
  destruct S2 as (m2 & y2 & E2 & M2 & T2).
  assert (S3 : exists m3 y3, post_type a (m2, y2, x1 || existsb d_executed r) (2%nat, c) = Ok (m3, y3, (x1 || existsb d_executed r) || existsb d_executed c) /\
     mask_of 154 (fun i => exists d, In d ((w ++ r) ++ c) /\ (i = 0 \/ post_action d i)) m3 /\ taken post_action y2 c y3).
  { destruct c as [|d c].
    - exists m2, y2. rewrite app_nil_r. cbn [existsb]. rewrite orb_false_r. split; [reflexivity|]. split; [exact M2|right; split; [constructor|reflexivity]].
    - cbn [post_type]. destruct (allow_step _ _ _ 0 M2 ltac:(lia)) as (m3 & -> & M3). cbn [bind].
      change (Nat.eqb 2 DECISION_AGARI_IDX) with false. change (Nat.eqb 2 DECISION_REACH_IDX) with false. change (Nat.eqb 2 DECISION_NAKI_IDX) with true. cbv iota.
      destruct (post_calls_fold a (d :: c) _ m3 y2 (x1 || existsb d_executed r) M3 Fc) as (m4 & y4 & -> & M4 & T). exists m4, y4. split; [reflexivity|]. split; [|exact T].
      eapply mask_ext; [|exact M4]. intros i _. split.
      + intros [[(x & I & A)| ->]|(x & I & A)]; [exists x; rewrite in_app_iff; auto|exists d; rewrite in_app_iff; (split; [right; left; reflexivity|auto])|exists x; rewrite in_app_iff; auto].
      + intros (x & I & A). apply in_app_iff in I as [I|I]; [eauto|]. destruct A as [->|A]; [auto|right; eauto]. }
  destruct S3 as (m3 & y3 & E3 & M3 & T3). exists m3, y3.
  split; [cbn [foldM]; rewrite E1; cbn [bind]; rewrite E2; cbn [bind]; rewrite E3; cbn [bind]; rewrite !existsb_app, <- Ex, orb_assoc; reflexivity|].
  rewrite app_assoc. split; [exact M3|]. eapply taken_app; [eapply taken_app; [exact T1|exact T2]|exact T3].
Qed.

Lemma concat_some ds : Nat.eqb (List.length (List.concat ds)) 0 = negb (some_decision ds).
Proof. induction ds as [|[|d l] r IH]; [reflexivity|exact IH|reflexivity]. Qed.
Lemma concat_some2 ds : Nat.eqb (List.length (List.concat (List.concat ds))) 0 = negb (existsb some_decision ds).
Proof.
  induction ds as [|l r IH]; [reflexivity|]. cbn [List.concat existsb]. rewrite concat_app, app_length.
  pose proof (concat_some l) as C. destruct (some_decision l); cbn [negb orb] in *.
  - destruct (List.length (List.concat l)); [discriminate|reflexivity].
  - apply Nat.eqb_eq in C. rewrite C. exact IH.
Qed.

(** What a row for player [q] of half-turn [h] shows. *)
Definition post_row (t : list Z) (f : features) (h : halfturn sview) (q : Z) (r : sample) : Prop :=
  r_tokens r = t /\ r_state r = f /\ r_player r = q /\
  mask_of 154 (fun i => exists d, In d (decisions_for h q) /\ (i = 0 \/ post_action d i)) (r_mask r) /\
  taken post_action 0 (decisions_for h q) (r_label r) /\ decisions_for h q <> [].

Lemma post_players_ok a t f p v ds i l : Forall (fun q => (q < 4)%nat) l -> List.length ds = 4%nat -> Forall (proper post_action 154) ds ->
  exists rows, post_players a t f ds l = Ok rows /\
    Forall2 (post_row t f (PostTurn p v ds i)) (up_to_actor (PostTurn p v ds i) (map Z.of_nat l)) rows.
Proof.
  intros Hl Hd Hp. induction l as [|q l IH]; [exists []; split; [reflexivity|constructor]|].
  inversion Hl as [|? ? Hq Hl']; subst. destruct (IH Hl') as (rows & E & F). cbn [post_players map up_to_actor].
  assert (Pq : proper post_action 154 (nth q ds [])) by (rewrite Forall_forall in Hp; apply Hp, nth_In; lia).
  assert (Dq : decisions_for (PostTurn p v ds i) (Z.of_nat q) = List.concat (nth q ds [])) by (cbn [decisions_for]; now rewrite Nat2Z.id).
  destruct (List.concat (nth q ds [])) as [|d ls] eqn:Ec.
  - rewrite Dq. cbn [List.length Nat.eqb]. eauto.
  - cbn [List.length Nat.eqb]. rewrite Dq.
    destruct (post_lists a _ Pq) as (m & y & Ef & M & T). rewrite Ef. cbn [bind]. rewrite Ec in *.
    assert (R : post_row t f (PostTurn p v ds i) (Z.of_nat q) (MkSample t f m y (Z.of_nat q))).
    { unfold post_row. rewrite Dq. cbn [r_tokens r_state r_player r_mask r_label]. repeat (split; [reflexivity || assumption|]). discriminate. }
    destruct (existsb d_executed (d :: ls)).
    + cbn [bind]. eexists. split; [reflexivity|]. constructor; [exact R|constructor].
    + rewrite E. cbn [bind]. eexists. split; [reflexivity|]. constructor; [exact R|exact F].
Qed.

Lemma order_seats p : 0 <= p < 4 -> map Z.of_nat (others_in_order (Z.to_nat p)) = [(p + 1) mod 4; (p + 2) mod 4; (p + 3) mod 4] /\
  Forall (fun q => (q < 4)%nat) (others_in_order (Z.to_nat p)).
Proof.
  intros H. assert (E : p = 0 \/ p = 1 \/ p = 2 \/ p = 3) by lia.
  destruct E as [-> | [-> | [-> | ->]]]; (split; [reflexivity|repeat constructor; lia]).
Qed.

(** ** Whole rounds *)
Lemma mapM_select {A B} (f : A -> res (list B)) (sel : A -> bool) (R : A -> B -> Prop) l ls :
  mapM f l = Ok ls -> (forall x rows, In x l -> f x = Ok rows -> if sel x then exists r, rows = [r] /\ R x r else rows = []) ->
  Forall2 R (filter sel l) (List.concat ls).
Proof.
  revert ls. induction l as [|x l IH]; cbn [mapM]; intros ls H Q; [apply Ok_inj in H; subst; constructor|].
  destruct (f x) as [rows|] eqn:Ex; [|discriminate H]. cbn [bind] in H. destruct (mapM f l) as [ls'|]; [|discriminate H]. cbn [bind] in H. apply Ok_inj in H. subst ls.
  specialize (IH ls' eq_refl (fun y rows I => Q y rows (or_intror I))). specialize (Q x rows (or_introl eq_refl) Ex).
  cbn [filter List.concat]. destruct (sel x); [destruct Q as (r & -> & Hr); constructor; assumption|subst rows; exact IH].
Qed.
Lemma mapM_group {A B} (f : A -> res (list B)) (sel : A -> bool) (R : A -> list B -> Prop) l ls :
  mapM f l = Ok ls -> (forall x rows, In x l -> f x = Ok rows -> if sel x then R x rows else rows = []) ->
  exists gs, List.concat ls = List.concat gs /\ Forall2 R (filter sel l) gs.
Proof.
  revert ls. induction l as [|x l IH]; cbn [mapM]; intros ls H Q; [apply Ok_inj in H; subst; exists []; split; [reflexivity|constructor]|].
  destruct (f x) as [rows|] eqn:Ex; [|discriminate H]. cbn [bind] in H. destruct (mapM f l) as [ls'|]; [|discriminate H]. cbn [bind] in H. apply Ok_inj in H. subst ls.
  destruct (IH ls' eq_refl (fun y rows I => Q y rows (or_intror I))) as (gs & Eg & F). specialize (Q x rows (or_introl eq_refl) Ex).
  cbn [filter List.concat]. destruct (sel x); [exists (rows :: gs); cbn [List.concat]; rewrite Eg; split; [reflexivity|constructor; assumption]|subst rows; exists gs; split; [exact Eg|exact F]].
Qed.

Definition during_row (a : agent) (tokens : list Z) (h : halfturn sview) (r : sample) : Prop :=
  exists p v ds i, h = DuringTurn p v ds i /\ tokens_before tokens i (r_tokens r) /\ i < 150 /\ convert_state a v = Ok (r_state r) /\ r_player r = p /\
    mask_of 71 (fun j => j = 0 \/ exists d, In d (List.concat ds) /\ during_action d j) (r_mask r) /\
    taken during_action 2 (nth 2 ds []) (r_label r).
Definition discard_row (a : agent) (tokens : list Z) (h : halfturn sview) (r : sample) : Prop :=
  exists p v t i, h = DiscardTurn p v t i /\ tokens_before tokens i (r_tokens r) /\ i < 150 /\ convert_state a v = Ok (r_state r) /\ r_player r = p /\
    r_mask r = map (fun c => Z.min c 1) (sv_hand v) /\ exists ti, tile2idx t = Ok ti /\ r_label r = Z.of_nat (hd 0%nat ti).
Definition post_rows (a : agent) (tokens : list Z) (h : halfturn sview) (rows : list sample) : Prop :=
  exists p v ds i t f, h = PostTurn p v ds i /\ tokens_before tokens i t /\ i < 150 /\ convert_state a v = Ok f /\
    Forall2 (post_row t f h) (asked h) rows.

Lemma build_ok a turns tokens t : build_tensors a turns tokens = Ok t -> Forall well_formed turns -> Forall (fun h => 0 <= SpecRound.index_of h) turns ->
  Forall2 (during_row a tokens) (own_turns turns) (t_during t) /\
  Forall2 (discard_row a tokens) (discards turns) (t_discard t) /\
  exists rows, t_post t = List.concat rows /\ Forall2 (post_rows a tokens) (reactions turns) rows.
Proof.
  intros H W N. rewrite Forall_forall in W, N. unfold build_tensors in H.
  apply bind_ok in H as (du & E1 & H). apply bind_ok in H as (u1 & _ & H).
  apply bind_ok in H as (di & E2 & H). apply bind_ok in H as (u2 & _ & H).
  apply bind_ok in H as (po & E3 & H). apply bind_ok in H as (u3 & _ & H). apply Ok_inj in H. subst t. cbn [t_during t_discard t_post].
  split; [|split].
  - eapply mapM_select; [exact E1|]. intros h rows I E. specialize (W h I). specialize (N h I).
    destruct h as [p v ds i| |]; cbn [well_formed SpecRound.index_of] in *; try (apply Ok_inj in E; now subst).
    unfold during_sample in E. rewrite concat_some in E. destruct (some_decision ds); cbn [negb] in E; [|apply Ok_inj in E; now subst].
    apply bind_ok in E as (tr & Et & E). apply bind_ok in E as (f & Ef & E). apply bind_ok in E as (m0 & Em & E).
    destruct (during_lists a ds W) as (m0' & m & y & Em' & Ed & M & T). rewrite Em in Em'. apply Ok_inj in Em'. subst m0'. rewrite Ed in E. cbn [bind] in E. apply Ok_inj in E. subst rows.
    eexists. split; [reflexivity|]. apply token_row_ok in Et as [Et Hi]; [|exact N]. exists p, v, ds, i. cbn [r_tokens r_state r_player r_mask r_label]. repeat (split; [reflexivity || assumption|]). assumption.
  - eapply mapM_select; [exact E2|]. intros h rows I E. specialize (N h I).
    destruct h as [|p v tl i|]; cbn [SpecRound.index_of] in *; try (apply Ok_inj in E; now subst).
    apply bind_ok in E as (s & Es & E). apply Ok_inj in E. subst rows. exists s. split; [reflexivity|].
    unfold discard_sample in Es. apply bind_ok in Es as (tr & Et & Es). apply bind_ok in Es as (f & Ef & Es). apply bind_ok in Es as (ti & Eti & Es). apply Ok_inj in Es. subst s.
    apply token_row_ok in Et as [Et Hi]; [|exact N]. exists p, v, tl, i. cbn [r_tokens r_state r_player r_mask r_label]. repeat (split; [reflexivity || assumption|]). exists ti. auto.
  - eapply mapM_group; [exact E3|]. intros h rows I E. specialize (W h I). specialize (N h I).
    destruct h as [| |p v ds i]; cbn [well_formed SpecRound.index_of] in *; try (apply Ok_inj in E; now subst).
    unfold post_sample in E. rewrite concat_some2 in E. destruct (existsb some_decision ds); cbn [negb] in E; [|apply Ok_inj in E; now subst].
    apply bind_ok in E as (tr & Et & E). apply bind_ok in E as (f & Ef & E).
    destruct W as (Wp & Wl & W). destruct (order_seats p Wp) as [Eo Fo].
    destruct (post_players_ok a tr f p v ds i _ Fo Wl W) as (rows' & E' & F). rewrite E in E'. apply Ok_inj in E'. subst rows'. rewrite Eo in F.
    apply token_row_ok in Et as [Et Hi]; [|exact N]. exists p, v, ds, i, tr, f. repeat (split; [reflexivity || assumption|]). exact F.
Qed.

(** ** Success *)
Lemma binary_sum m : (forall i, nth i m 0 = 0 \/ nth i m 0 = 1) -> 0 <= vsum m /\
  (forall i, (i < List.length m)%nat -> nth i m 0 <= vsum m) /\
  (forall i j, (i < j < List.length m)%nat -> nth i m 0 + nth j m 0 <= vsum m).
Proof.
  induction m as [|x m IH]; intros B; [split; [reflexivity|split; intros; cbn [List.length] in *; lia]|].
  destruct (IH (fun i => B (S i))) as (A1 & A2 & A3). pose proof (B 0%nat) as B0. cbn [nth] in B0. change (vsum (x :: m)) with (x + vsum m).
  split; [lia|]. split.
  - intros [|i] H; cbn [nth List.length] in *; [lia|]. specialize (A2 i ltac:(lia)). lia.
  - intros [|i] [|j] H; cbn [nth List.length] in *; try lia; [specialize (A2 j ltac:(lia))|specialize (A3 i j ltac:(lia))]; lia.
Qed.
Lemma two_of_mask n P m i j : mask_of n P m -> 0 <= i < n -> 0 <= j < n -> i <> j -> P i -> P j -> 2 <= vsum m.
Proof.
  intros [L B] Hi Hj N Pi Pj.
  assert (B' : forall k, nth k m 0 = 0 \/ nth k m 0 = 1).
  { intros k. destruct (Nat.lt_ge_cases k (List.length m)) as [H|H]; [|left; now apply nth_overflow].
    destruct (B (Z.of_nat k) ltac:(lia)) as [[E _]|[E _]]; rewrite Nat2Z.id in E; auto. }
  destruct (binary_sum m B') as (_ & _ & A).
  assert (G : forall k, 0 <= k < n -> P k -> nth (Z.to_nat k) m 0 = 1) by (intros k Hk Pk; destruct (B k Hk) as [[E _]|[_ E]]; [exact E|contradiction]).
  pose proof (G i Hi Pi) as Gi. pose proof (G j Hj Pj) as Gj.
  destruct (Z.lt_total i j) as [H|[H|H]]; [|contradiction|]; [specialize (A (Z.to_nat i) (Z.to_nat j) ltac:(lia))|specialize (A (Z.to_nat j) (Z.to_nat i) ltac:(lia))]; lia.
Qed.

Lemma convert_total a v : sizes_ok v -> exists f, convert_state a v = Ok f.
Proof.
  unfold sizes_ok, convert_state. cbv zeta. intros (H0 & Hp & H1 & H2 & H3 & H4 & H5 & H6 & H7). 
  assert (F : forallb (fun r => Nat.eqb (List.length r) 4)
     [so_scores (sv_obj v); so_parent_tensor (sv_obj v); so_parent_rounds_remaining (sv_obj v); so_double_reaches (sv_obj v);
             so_reaches (sv_obj v); so_ippatsu (sv_obj v); sv_menzen v] = true)
   by (cbn [forallb]; rewrite H1, H2, H3, H4, H5, H6, H7; reflexivity).
  rewrite F, H0. unfold py_index.
  destruct a; try (destruct (Z.leb_spec 0 (Z.of_nat (so_player (sv_obj v)))); [|lia]; destruct (Z.ltb_spec (Z.of_nat (so_player (sv_obj v))) (Z.of_nat 4)); [|lia]); cbn [bind andb]; eauto.
Qed.

(** A decision that is offered has an action number other than pass. *)
Lemma proper_action act n ds d : proper act n ds -> (forall d, is_win d -> act d 1) -> (forall d, is_riichi d -> act d 2) -> 2 < n -> In d (List.concat ds) ->
  exists i, 0 < i < n /\ act d i.
Proof.
  intros (w & r & c & -> & _ & _ & Fw & Fr & Fc) A1 A2 N I. cbn [List.concat] in I. rewrite app_nil_r, !in_app_iff in I. rewrite Forall_forall in *.
  destruct I as [I|[I|I]]; [exists 1; split; [lia|auto]|exists 2; split; [lia|auto]|]. destruct (Fc d I) as (_ & i & Hi & B). exists i. split; [lia|exact Hi].
Qed.
Lemma some_in ds : some_decision ds = true -> exists d, In d (List.concat ds).
Proof.
  unfold some_decision. rewrite existsb_exists. intros (l & I & H). destruct l as [|d l]; [discriminate H|]. exists d. apply in_concat. exists (d :: l). split; [exact I|now left].
Qed.

Lemma mapM_all {A B} (f : A -> res B) l : (forall x, In x l -> exists y, f x = Ok y) -> exists ys, mapM f l = Ok ys.
Proof.
  induction l as [|x l IH]; intros H; cbn [mapM]; [eauto|]. destruct (H x (or_introl eq_refl)) as (y & ->). destruct IH as (ys & ->); [intros z I; apply H; now right|]. cbn [bind]. eauto.
Qed.

(** What is needed of a half-turn for its rows to be built. *)
Definition buildable (h : halfturn sview) : Prop :=
  well_formed h /\ 0 <= SpecRound.index_of h < 150 /\ sizes_ok (state_of h) /\
  match h with DiscardTurn _ v t _ => -136 <= t < 136 /\ exists c, In c (sv_hand v) /\ c <> 0 | _ => True end.

Lemma build_total a turns tokens : Forall buildable turns -> exists t, build_tensors a turns tokens = Ok t.
Proof.
  intros B. rewrite Forall_forall in B. unfold build_tensors.
  assert (X : forall h, In h turns -> exists rows,
     match h with DuringTurn p v ds i => during_sample a (pad_tokens tokens) p v ds i | _ => Ok [] end = Ok rows /\ two_allowed rows = true).
  { intros h I. destruct (B h I) as (W & Hi & Sz & _). destruct h as [p v ds i| |]; try (exists []; split; reflexivity).
    cbn [well_formed SpecRound.index_of state_of] in *. unfold during_sample. rewrite concat_some. destruct (some_decision ds) eqn:So; cbn [negb]; [|exists []; split; reflexivity].
    destruct (token_row_total (pad_tokens tokens) i ltac:(lia)) as (tr & Etr). rewrite Etr. cbn [bind]. destruct (convert_total a v Sz) as (f & Ef). rewrite Ef. cbn [bind].
    destruct (during_lists a ds W) as (m0 & m & y & Em & Ed & M & T). rewrite Em. cbn [bind]. rewrite Ed. cbn [bind]. eexists. split; [reflexivity|].
    unfold two_allowed. cbn [forallb r_mask]. rewrite andb_true_r. apply Z.leb_le.
    destruct (some_in ds So) as (d & Id). destruct (proper_action _ _ _ d W) as (k & Hk & Ak); [intros []; cbn; tauto|intros []; cbn; tauto|lia|exact Id|].
    apply (two_of_mask 71 _ m 0 k M); [lia|lia|lia|now left|right; eauto]. }
  assert (Y : forall h, In h turns -> exists rows,
     match h with DiscardTurn p v t i => s <- discard_sample a (pad_tokens tokens) p v t i ;; Ok [s] | _ => Ok [] end = Ok rows /\ one_allowed rows = true).
  { intros h I. destruct (B h I) as (_ & Hi & Sz & D). destruct h as [|p v t i|]; try (exists []; split; reflexivity).
    cbn [SpecRound.index_of state_of] in *. unfold discard_sample. destruct (token_row_total (pad_tokens tokens) i ltac:(lia)) as (tr & Etr). rewrite Etr. cbn [bind]. destruct (convert_total a v Sz) as (f & Ef). rewrite Ef. cbn [bind].
    destruct D as (Ht & c & Ic & Nc).
    assert (Et : exists ti, tile2idx t = Ok ti).
    { unfold tile2idx. destruct (py_index 136 t) eqn:Ep; [cbn [bind]; eauto|exfalso]. unfold py_index in Ep. change (Z.of_nat 136) with 136 in Ep.
      destruct (Z.leb_spec 0 t); destruct (Z.ltb_spec t 136); cbn [andb] in Ep; try discriminate Ep; try lia.
      all: destruct (Z.ltb_spec t 0); destruct (Z.leb_spec (- (136)) t); cbn [andb] in Ep; try discriminate Ep; lia. }
    destruct Et as (ti & ->). cbn [bind]. eexists. split; [reflexivity|]. unfold one_allowed. cbn [forallb r_mask]. rewrite andb_true_r.
    apply existsb_exists. exists (Z.min c 1). split; [apply in_map_iff; eauto|]. destruct (Z.eqb_spec (Z.min c 1) 0); [lia|reflexivity]. }
  assert (V : forall h, In h turns -> exists rows,
     match h with PostTurn p v ds i => post_sample a (pad_tokens tokens) p v ds i | _ => Ok [] end = Ok rows /\ two_allowed rows = true).
  { intros h I. destruct (B h I) as (W & Hi & Sz & _). destruct h as [| |p v ds i]; try (exists []; split; reflexivity).
    cbn [well_formed SpecRound.index_of state_of] in *. unfold post_sample. rewrite concat_some2. destruct (existsb some_decision ds); cbn [negb]; [|exists []; split; reflexivity].
    destruct (token_row_total (pad_tokens tokens) i ltac:(lia)) as (tr & Etr). rewrite Etr. cbn [bind]. destruct (convert_total a v Sz) as (f & Ef). rewrite Ef. cbn [bind].
    destruct W as (Wp & Wl & W). destruct (order_seats p Wp) as [Eo Fo].
    destruct (post_players_ok a tr f p v ds i _ Fo Wl W) as (rows & -> & F). exists rows. split; [reflexivity|].
    unfold two_allowed. apply forallb_forall. intros r Ir. apply Z.leb_le.
    assert (Q : exists q, In q [(p + 1) mod 4; (p + 2) mod 4; (p + 3) mod 4] /\ post_row tr f (PostTurn p v ds i) q r).
    { assert (U : forall l, incl (up_to_actor (PostTurn p v ds i) l) l).
      { intros l. induction l as [|q l IH]; [intros z []|]. cbn [up_to_actor]. destruct (decisions_for _ q); [intros z Iz; right; auto|].
        destruct (existsb _ _); [intros z [<-|[]]; now left|intros z [<-|Iz]; [now left|right; auto]]. }
      rewrite Eo in F. specialize (U [(p + 1) mod 4; (p + 2) mod 4; (p + 3) mod 4]). revert F U. generalize (up_to_actor (PostTurn p v ds i) [(p + 1) mod 4; (p + 2) mod 4; (p + 3) mod 4]).
      intros qs F U. clear - F Ir U. induction F as [|q r' qs rows Hq _ IH]; [destruct Ir|]. destruct Ir as [<-|Ir]; [exists q; split; [apply U; now left|exact Hq]|]. apply IH; [exact Ir|]. intros z Iz. apply U. now right. }
    destruct Q as (q & Iq & _ & _ & _ & M & _ & N).
    assert (Hq : (Z.to_nat q < 4)%nat) by (cbn [In] in Iq; destruct Iq as [<-|[<-|[<-|[]]]]; [pose proof (Z.mod_pos_bound (p + 1) 4)|pose proof (Z.mod_pos_bound (p + 2) 4)|pose proof (Z.mod_pos_bound (p + 3) 4)]; lia).
    assert (Pq : proper post_action 154 (nth (Z.to_nat q) ds [])) by (rewrite Forall_forall in W; apply W, nth_In; lia).
    cbn [decisions_for] in *. destruct (List.concat (nth (Z.to_nat q) ds [])) as [|d l] eqn:Ec; [contradiction|].
    destruct (proper_action _ _ _ d Pq) as (k & Hk & Ak); [intros []; cbn; tauto|intros []; cbn; tauto|lia|rewrite Ec; now left|].
    apply (two_of_mask 154 _ (r_mask r) 0 k M); [lia|lia|lia|exists d; split; [now left|now left]|exists d; split; [now left|now right]]. }
  assert (G : forall (f : halfturn sview -> res (list sample)) (t : list sample -> bool), (forall l1 l2, t l1 = true -> t l2 = true -> t (l1 ++ l2) = true) -> t [] = true -> forall l, (forall h, In h l -> exists rows, f h = Ok rows /\ t rows = true) ->
     exists ls, mapM f l = Ok ls /\ t (List.concat ls) = true).
  { intros f t Ta T0 l. induction l as [|h l IH]; intros H; [exists []; split; [reflexivity|exact T0]|]. destruct (H h (or_introl eq_refl)) as (rows & E & Tr).
    destruct IH as (ls & El & Tl); [intros z I; apply H; now right|]. exists (rows :: ls). cbn [mapM List.concat]. rewrite E. cbn [bind]. rewrite El. cbn [bind]. auto. }
  destruct (G _ two_allowed (fun l1 l2 A1 A2 => eq_trans (forallb_app _ l1 l2) (andb_true_intro (conj A1 A2))) eq_refl turns X) as (l1 & -> & T1).
  destruct (G _ one_allowed (fun l1 l2 A1 A2 => eq_trans (forallb_app _ l1 l2) (andb_true_intro (conj A1 A2))) eq_refl turns Y) as (l2 & E2 & T2).
  destruct (G _ two_allowed (fun l1 l2 A1 A2 => eq_trans (forallb_app _ l1 l2) (andb_true_intro (conj A1 A2))) eq_refl turns V) as (l3 & E3 & T3).
  cbn [bind]. rewrite T1. cbv [passert]. cbn [bind]. rewrite E2. cbn [bind]. rewrite T2. cbn [bind]. rewrite E3. cbn [bind]. rewrite T3. cbn [bind]. eauto.
Qed.

(** ** State features *)
Definition clamp (c : Z) : Z := Z.max 0 (Z.min 4 c).
Lemma thermometer_sum c : plane_count (thermometer c) = clamp c.
Proof.
  unfold plane_count, thermometer, clamp, zrange. cbn [seq map].
  change (Z.of_nat 0) with 0. change (Z.of_nat 1) with 1. change (Z.of_nat 2) with 2. change (Z.of_nat 3) with 3. unfold vsum. cbn [fold_right].
  destruct (Z.ltb_spec 0 c), (Z.ltb_spec 1 c), (Z.ltb_spec 2 c), (Z.ltb_spec 3 c); cbn [b2z]; lia.
Qed.
Lemma planes_count a c : a = TF \/ 0 <= c <= 4 -> plane_count (planes a c) = c.
Proof.
  intros H. destruct a; cbn [planes]; [unfold plane_count, vsum; cbn [fold_right]; lia|..]; destruct H as [H|H]; try discriminate H; rewrite thermometer_sum; unfold clamp; lia.
Qed.
Lemma planes_row a v : a = TF \/ counts v -> map plane_count (map (planes a) v) = v.
Proof.
  intros H. rewrite map_map. rewrite <- (map_id v) at 2. apply map_ext_in. intros c Hc. apply planes_count.
  destruct H as [H|H]; [now left|right]. unfold counts in H. rewrite Forall_forall in H. now apply H.
Qed.
Lemma roll_nth m p i : List.length m = 4%nat -> (p < 4)%nat -> (i < 4)%nat -> nth i (roll m p) [] = nth ((p + i) mod 4) m [].
Proof.
  intros L Hp Hi. destruct m as [|a [|b [|c [|d [|]]]]]; try discriminate L.
  destruct p as [|[|[|[|]]]]; try lia; destruct i as [|[|[|[|]]]]; try lia; reflexivity.
Qed.
Lemma decode_nth x k : nth k (decode x) [] = map plane_count (nth k x []).
Proof. unfold decode. change (@nil Z) with (map plane_count []) at 1. apply map_nth. Qed.
Lemma counts_nth l k : Forall counts l -> counts (nth k l []).
Proof. intros F. destruct (nth_in_or_default k l []) as [H| ->]; [rewrite Forall_forall in F; now apply F|constructor]. Qed.

Lemma features_ok a v f : convert_state a v = Ok f -> 
  let o := sv_obj v in
  f_x2 f = [so_scores o; so_parent_tensor o; so_parent_rounds_remaining o; so_double_reaches o; so_reaches o; so_ippatsu o; sv_menzen v] /\
  f_x3 f = [so_remaining_tsumo o; so_kyotaku o; so_honba o; so_rounds_remaining o] /\
  f_x1 f = map (map (planes a)) (sv_hand v :: sv_pov v :: match a with ORDERED => roll (so_sutehai o) (so_player o) | _ => [row (so_sutehai o) (so_player o)] end).
Proof.
  unfold convert_state. intros H. apply bind_ok in H as (ch & E & H). apply bind_ok in H as (u & _ & H). apply Ok_inj in H. subst f. cbn [f_x1 f_x2 f_x3].
  split; [reflexivity|]. split; [reflexivity|]. 
  destruct a; try (apply Ok_inj in E; now subst ch); apply bind_ok in E as (k & Ek & E); apply Ok_inj in E; subst ch;
    unfold py_index in Ek; (destruct ((0 <=? Z.of_nat (so_player (sv_obj v))) && _) eqn:B in Ek; [apply Ok_inj in Ek; subst k; now rewrite Nat2Z.id|]);
    (destruct (_ && _) eqn:B2 in Ek; [|discriminate Ek]; apply andb_prop in B2 as [_ B2]; apply Z.ltb_lt in B2; lia).
Qed.

(** ** Labels are allowed *)
Lemma taken_allowed n P m act none l y : mask_of n P m -> taken act none l y -> P none -> 0 <= none < n ->
  (forall d i, In d l -> act d i -> P i /\ 0 <= i < n) -> nth (Z.to_nat y) m 0 = 1 /\ 0 <= y < n.
Proof.
  intros [_ M] T Pn Hn Ha.
  assert (Q : P y /\ 0 <= y < n) by (destruct T as [(d & I & _ & A)|(_ & ->)]; [exact (Ha d y I A)|auto]).
  destruct Q as [Py Hy]. split; [|exact Hy]. destruct (M y Hy) as [[E _]|[_ N]]; [exact E|contradiction].
Qed.
Lemma proper_range act n ds d i : proper act n ds -> (forall d j, is_win d -> act d j -> j = 1) -> (forall d j, is_riichi d -> act d j -> j = 2) ->
  (forall d j k, is_call d -> act d j -> act d k -> j = k) -> 2 < n -> In d (List.concat ds) -> act d i -> 0 < i < n.
Proof.
  intros (w & r & c & -> & _ & _ & Fw & Fr & Fc) A1 A2 A3 N I A. cbn [List.concat] in I. rewrite app_nil_r, !in_app_iff in I. rewrite Forall_forall in *.
  destruct I as [I|[I|I]]; [rewrite (A1 d i (Fw d I) A); lia|rewrite (A2 d i (Fr d I) A); lia|]. destruct (Fc d I) as (C & j & Aj & B). rewrite (A3 d i j C A Aj). lia.
Qed.
Lemma act_facts : (forall d j, is_win d -> during_action d j -> j = 1) /\ (forall d j, is_riichi d -> during_action d j -> j = 2) /\
  (forall d j k, is_call d -> during_action d j -> during_action d k -> j = k) /\
  (forall d j, is_win d -> post_action d j -> j = 1) /\ (forall d j, is_riichi d -> post_action d j -> j = 2) /\
  (forall d j k, is_call d -> post_action d j -> post_action d k -> j = k).
Proof.
  repeat split; intros []; cbn [is_win is_riichi is_call during_action post_action]; intros; try tauto; congruence.
Qed.

Lemma Forall2_impl {A B} (P Q : A -> B -> Prop) l l' : (forall x y, P x y -> Q x y) -> Forall2 P l l' -> Forall2 Q l l'.
Proof. intros H F. induction F; constructor; auto. Qed.
