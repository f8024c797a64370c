(** The forward pass of Network.v on fitting samples. *)
From Coq Require Import ZArith List Bool Reals String Lia Lra PeanoNat.
From Verif Require Import Base Constants SpecTokens Tensor Encoder EncoderLemmas EncoderSum Network NetworkLemmas SpecNetwork VecLemmas.
Import ListNotations.
Open Scope R_scope.

Lemma Forall_hd {A} (P : A -> Prop) d l : l <> [] -> Forall P l -> P (hd d l).
Proof. intros N F. destruct F; [contradiction|assumption]. Qed.
Lemma nonempty_len {A} (l : list A) n : List.length l = S n -> l <> [].
Proof. intros H ->. discriminate H. Qed.

Lemma shape_fits a h r : fits a h r -> shape1 a (r_state r) = planes_shape a /\ even1 a (r_state r) = true.
Proof.
  intros (_ & _ & L1 & F1 & _).
  assert (N : f_x1 (r_state r) <> []) by (eapply (nonempty_len _ (channels a - 1)); rewrite L1; destruct a; reflexivity).
  destruct (Forall_hd _ [] _ N F1) as [H1 H2].
  assert (N2 : hd [] (f_x1 (r_state r)) <> []) by (eapply (nonempty_len _ 36); exact H1).
  pose proof (Forall_hd _ [] _ N2 H2) as H3. cbv beta in H3. split.
  - unfold shape1. rewrite L1, H1, H3. destruct a; reflexivity.
  - unfold even1. rewrite H1, H3. apply forallb_forall. rewrite Forall_forall in F1. intros rw I. destruct (F1 rw I) as [-> Fr]. cbn [Nat.eqb andb].
    apply forallb_forall. rewrite Forall_forall in Fr. intros p Ip. rewrite (Fr p Ip). destruct a; reflexivity.
Qed.

Section Batch.
Context (a : agent) (h : which) (l1 l2 : list sample) (n1 n2 : nat) (r r' : sample).
Context (F1 : Forall (fits a h) l1) (F2 : Forall (fits a h) l2) (I1 : nth_error l1 n1 = Some r) (I2 : nth_error l2 n2 = Some r').
(** The two entries agree in everything the network looks at. *)
Context (Et : encode_row a (r_player r') (r_tokens r') = encode_row a (r_player r) (r_tokens r)) (Es : r_state r' = r_state r).
Notation B1 := (List.length l1).
Notation B2 := (List.length l2).

Lemma stack1_ok l : l <> [] -> Forall (fits a h) l -> exists x, stack1 a l = Ok x /\ dims x = List.length l :: planes_shape a /\
  forall n t, at_ x (n :: t) = match nth_error l n with Some r => entry1 a (r_state r) t | None => 0 end.
Proof.
  intros N F. destruct l as [|r0 l]; [contradiction|]. unfold stack1. destruct (shape_fits _ _ _ (Forall_inv F)) as [S0 _].
  replace (forallb _ (r0 :: l)) with true.
  - cbn [guard bind]. eexists. split; [reflexivity|]. cbn [dims at_]. rewrite S0. auto.
  - symmetry. apply forallb_forall. rewrite Forall_forall in F. intros x Hx. destruct (shape_fits _ _ _ (F x Hx)) as [-> ->]. rewrite S0. apply dims_eqb_refl.
Qed.
Lemma stack2_ok l : l <> [] -> Forall (fits a h) l -> exists x, stack2 l = Ok x /\ dims x = [List.length l; 7%nat; 4%nat] /\
  forall n j k, at_ x [n; j; k] = match nth_error l n with Some r => IZR (nth2 0%Z (f_x2 (r_state r)) j k) | None => 0 end.
Proof.
  intros N F. destruct l as [|r0 l]; [contradiction|]. unfold stack2. pose proof (Forall_inv F) as (_ & _ & _ & _ & L2 & V2 & _).
  pose proof (Forall_hd _ [] _ (nonempty_len _ 6 L2) V2) as H4. cbv beta in H4. rewrite H4, L2.
  replace (forallb _ (r0 :: l)) with true.
  - cbn [guard bind]. eexists. split; [reflexivity|]. cbn [dims at_]. auto.
  - symmetry. apply forallb_forall. rewrite Forall_forall in F. intros x Hx. destruct (F x Hx) as (_ & _ & _ & _ & -> & V & _). cbn [Nat.eqb andb].
    apply forallb_forall. rewrite Forall_forall in V. intros v Hv. now rewrite (V v Hv).
Qed.
Lemma stack3_ok l : l <> [] -> Forall (fits a h) l -> exists x, stack3 l = Ok x /\ dims x = [List.length l; 4%nat] /\
  forall n k, at_ x [n; k] = match nth_error l n with Some r => IZR (nth k (f_x3 (r_state r)) 0%Z) | None => 0 end.
Proof.
  intros N F. destruct l as [|r0 l]; [contradiction|]. unfold stack3. pose proof (Forall_inv F) as (_ & _ & _ & _ & _ & _ & L3 & _). rewrite L3.
  replace (forallb _ (r0 :: l)) with true.
  - cbn [guard bind]. eexists. split; [reflexivity|]. cbn [dims at_]. auto.
  - symmetry. apply forallb_forall. rewrite Forall_forall in F. intros x Hx. destruct (F x Hx) as (_ & _ & _ & _ & _ & _ & -> & _). reflexivity.
Qed.
Lemma embed_ok w l : l <> [] -> Forall (fits a h) l -> exists x, embed_batch a w l = Ok x /\ dims x = [List.length l; 150%nat; EMBD] /\
  forall n r t d, nth_error l n = Some r -> at_ x [n; t; d] = match encode_row a (r_player r) (r_tokens r) with Ok rows => row_sum w (nth t rows []) d | Err _ => 0 end.
Proof.
  intros N F. destruct l as [|r0 l]; [contradiction|]. unfold embed_batch. pose proof (Forall_inv F) as (L0 & _). rewrite L0.
  replace (forallb _ (r0 :: l)) with true.
  2: { symmetry. apply forallb_forall. rewrite Forall_forall in F. intros x Hx. destruct (F x Hx) as (-> & _). reflexivity. }
  change (150 <=? 150)%nat with true. cbn [andb guard bind].
  assert (G : exists xs, mapM (fun r => encode_row a (r_player r) (r_tokens r)) (r0 :: l) = Ok xs).
  { clear N L0. revert F. generalize (r0 :: l). intros k F. induction F as [|x k (Lx & Tx & _) _ (xs & IH)]; [eexists; reflexivity|].
    destruct (encode_row_total a (r_player x) (r_tokens x)) as (y & Ey); [lia|exact Tx|]. cbn [mapM]. rewrite Ey, IH. cbn [bind]. eauto. }
  destruct G as (xs & E). rewrite E. cbn [bind]. eexists. split; [reflexivity|]. cbn [dims at_]. split; [reflexivity|].
  intros n x t d Hn. apply mapM_ok in E. clear N F L0. revert n Hn. induction E as [|y z k ks Ey _ IH]; intros [|n] Hn; try discriminate Hn.
  - injection Hn as ->. cbn [nth]. now rewrite Ey.
  - cbn [nth nth_error] in *. now apply IH.
Qed.

Lemma B1_pos : (0 < B1)%nat.
Proof. assert (nth_error l1 n1 <> None) by congruence. apply nth_error_Some in H. lia. Qed.
Lemma B2_pos : (0 < B2)%nat.
Proof. assert (nth_error l2 n2 <> None) by congruence. apply nth_error_Some in H. lia. Qed.
Lemma l1_some : l1 <> []. Proof. pose proof B1_pos. intros E. rewrite E in *. cbn in H. lia. Qed.
Lemma l2_some : l2 <> []. Proof. pose proof B2_pos. intros E. rewrite E in *. cbn in H. lia. Qed.
Notation keeps := (keeps B1 n1 B2 n2).

Lemma keeps_stack1 : keeps (planes_shape a) (stack1 a l1) (stack1 a l2).
Proof.
  destruct (stack1_ok l1 l1_some F1) as (x & Ex & Dx & Ax). destruct (stack1_ok l2 l2_some F2) as (y & Ey & Dy & Ay). exists x, y.
  split; [exact Ex|]. split; [exact Ey|]. split; [exact Dx|]. split; [exact Dy|]. intros t _. now rewrite Ax, Ay, I1, I2, Es.
Qed.
Lemma keeps_stack2 : keeps [7; 4]%nat (stack2 l1) (stack2 l2).
Proof.
  destruct (stack2_ok l1 l1_some F1) as (x & Ex & Dx & Ax). destruct (stack2_ok l2 l2_some F2) as (y & Ey & Dy & Ay). exists x, y.
  split; [exact Ex|]. split; [exact Ey|]. split; [exact Dx|]. split; [exact Dy|]. intros t Ht. destruct t as [|j [|k [|]]]; try discriminate Ht. now rewrite Ax, Ay, I1, I2, Es.
Qed.
Lemma keeps_stack3 : keeps [4]%nat (stack3 l1) (stack3 l2).
Proof.
  destruct (stack3_ok l1 l1_some F1) as (x & Ex & Dx & Ax). destruct (stack3_ok l2 l2_some F2) as (y & Ey & Dy & Ay). exists x, y.
  split; [exact Ex|]. split; [exact Ey|]. split; [exact Dx|]. split; [exact Dy|]. intros t Ht. destruct t as [|k [|]]; try discriminate Ht. now rewrite Ax, Ay, I1, I2, Es.
Qed.
Lemma keeps_encoder net : agree_net n1 n2 net -> keeps [150%nat; EMBD] (encoder_forward a net l1) (encoder_forward a net l2).
Proof.
  intros [Ae _]. unfold encoder_forward. destruct (embed_ok (k_embed net) l1 l1_some F1) as (x & Ex & Dx & Ax). destruct (embed_ok (k_embed net) l2 l2_some F2) as (y & Ey & Dy & Ay).
  rewrite Ex, Ey. cbn [bind]. apply (keeps_fold _ _ _ _ _ _ _ _ (agree_enc n1 n2)).
  - intros b u v Ab S. now apply keeps_encoder_block.
  - exact Ae.
  - split; [exact Dx|]. split; [exact Dy|]. intros t Ht. destruct t as [|j [|k [|]]]; try discriminate Ht. now rewrite (Ax _ r), (Ay _ r'), Et.
Qed.

(** The network's own output, before masking *)
Definition raw_logits (net : network) (l : list sample) (enc : tensor) : res tensor :=
  x1 <- stack1 a l ;; x2 <- stack2 l ;; x3 <- stack3 l ;;
  x <- StateNet a (k_state net) x1 x2 x3 ;;
  match a with
    | ORDERED =>
        x <- unsqueeze1 x ;;
        x <- foldM (fun x b => DecoderBlock a (k_gelu net) b enc x) x (k_dec net) ;;
        x <- LayerNorm EMBD (k_ln net) x ;;
        y <- Linear EMBD (width h) (k_head net h) x ;;
        squeeze1 y
    | _ =>
        x <- foldM (fun x b => DecoderBlock a (k_gelu net) b enc x) x (k_dec net) ;;
        x <- LayerNorm EMBD (k_ln net) x ;;
        Linear EMBD (width h) (k_head net h) x
    end.
Lemma keeps_raw net enc enc' : agree_net n1 n2 net -> same B1 n1 B2 n2 [150%nat; EMBD] enc enc' -> keeps [width h] (raw_logits net l1 enc) (raw_logits net l2 enc').
Proof.
  intros [_ Ad] Se. unfold raw_logits.
  eapply keeps_bind; [exact keeps_stack1|]. intros x1 y1 S1. eapply keeps_bind; [exact keeps_stack2|]. intros x2 y2 S2. eapply keeps_bind; [exact keeps_stack3|]. intros x3 y3 S3.
  eapply keeps_bind; [exact (keeps_state _ _ _ _ a (k_state net) _ _ _ _ _ _ B1_pos B2_pos S1 S2 S3)|]. intros x y S.
  assert (Fd : forall x y, same B1 n1 B2 n2 (inner a) x y -> keeps (inner a) (foldM (fun x b => DecoderBlock a (k_gelu net) b enc x) x (k_dec net)) (foldM (fun x b => DecoderBlock a (k_gelu net) b enc' x) y (k_dec net))).
  { apply (keeps_fold _ _ _ _ _ _ _ _ (agree_dec n1 n2)); [|exact Ad]. intros b u v Ab Su. exact (keeps_decoder_block _ _ _ _ a _ b 150 _ _ _ _ Ab Se Su). }
  destruct a; cbn [inner] in Fd.
  1-3: (eapply keeps_bind; [exact (Fd _ _ S)|]; intros u v Su; eapply keeps_bind; [exact (keeps_norm _ _ _ _ [] _ _ _ _ Su)|]; intros u1 v1 Su1; exact (keeps_linear _ _ _ _ [] _ _ _ _ _ Su1)).
  eapply keeps_bind; [exact (keeps_unsqueeze _ _ _ _ _ _ _ S)|]. intros u v Su. eapply keeps_bind; [exact (Fd _ _ Su)|]. intros u1 v1 Su1.
  eapply keeps_bind; [exact (keeps_norm _ _ _ _ [1%nat] _ _ _ _ Su1)|]. intros u2 v2 Su2. eapply keeps_bind; [exact (keeps_linear _ _ _ _ [1%nat] _ _ _ _ _ Su2)|]. intros u3 v3 Su3.
  exact (keeps_squeeze _ _ _ _ _ _ _ Su3).
Qed.

Lemma decoder_raw net l enc : Forall (fits a h) l -> decoder_forward a net h l enc =
  bind (raw_logits net l enc) (fun logits => _ <- passert (match dims logits with [b; w] => Nat.eqb b (List.length l) && forallb (fun r => Nat.eqb (List.length (r_mask r)) w) l | _ => false end) ;;
    Ok (MkT (dims logits) (fun i => match i with [n; k] => if (mask_at l n k =? 0)%Z then MASKED else at_ logits i | _ => 0 end))).
Proof.
  intros F. unfold decoder_forward, raw_logits. rewrite Forall_forall in F.
  replace (forallb (fun r0 => forallb (fun m => (m =? 0)%Z || (m =? 1)%Z) (r_mask r0)) l) with true.
  2: { symmetry. apply forallb_forall. intros x Hx. destruct (F x Hx) as (_ & _ & _ & _ & _ & _ & _ & _ & M & _). apply forallb_forall. rewrite Forall_forall in M.
       intros m Hm. destruct (M m Hm) as [-> | ->]; reflexivity. }
  replace (forallb (fun r0 => existsb (fun m => negb (m =? 0)%Z) (r_mask r0)) l) with true.
  2: { symmetry. apply forallb_forall. intros x Hx. destruct (F x Hx) as (_ & _ & _ & _ & _ & _ & _ & _ & _ & M & _). apply existsb_exists. exists 1%Z. auto. }
  cbn [passert bind]. destruct (stack1 a l); [|reflexivity]. cbn [bind]. destruct (stack2 l); [|reflexivity]. cbn [bind]. destruct (stack3 l); [|reflexivity]. cbn [bind].
  destruct (StateNet _ _ _ _ _); reflexivity.
Qed.
Lemma masks_ok l b w : Forall (fits a h) l -> b = List.length l -> w = width h -> Nat.eqb b (List.length l) && forallb (fun r => Nat.eqb (List.length (r_mask r)) w) l = true.
Proof.
  intros F -> ->. rewrite Nat.eqb_refl. apply forallb_forall. rewrite Forall_forall in F. intros x Hx. destruct (F x Hx) as (_ & _ & _ & _ & _ & _ & _ & M & _). apply Nat.eqb_eq, M.
Qed.
Lemma labels_ok l : Forall (fits a h) l -> forallb (fun y => (0 <=? y)%Z && (y <? Z.of_nat (width h))%Z) (map r_label l) = true.
Proof.
  intros F. apply forallb_forall. rewrite Forall_forall in F. intros y Hy. apply in_map_iff in Hy as (x & <- & Hx). destruct (F x Hx) as (_ & _ & _ & _ & _ & _ & _ & _ & _ & _ & Hl).
  apply andb_true_intro. split; [apply Z.leb_le|apply Z.ltb_lt]; lia.
Qed.

(** What a forward pass yields: the masked logits and their loss. *)
Definition outcome (l : list sample) (raw : tensor) (res : tensor * R) : Prop :=
  dims (fst res) = [List.length l; width h] /\
  (forall n k, at_ (fst res) [n; k] = if (mask_at l n k =? 0)%Z then MASKED else at_ raw [n; k]) /\
  snd res = sum_n (List.length l) (fun n => ln (sum_n (width h) (fun k => exp (at_ (fst res) [n; k]))) - at_ (fst res) [n; Z.to_nat (nth n (map r_label l) 0%Z)]) / INR (List.length l).
Lemma finish net l enc raw : l <> [] -> Forall (fits a h) l -> encoder_forward a net l = Ok enc -> raw_logits net l enc = Ok raw -> dims raw = [List.length l; width h] ->
  exists out, forward a net h l = Ok out /\ outcome l raw out.
Proof.
  intros N F E R D. unfold forward. rewrite E. cbn [bind]. rewrite (decoder_raw _ _ _ F), R. cbn [bind]. rewrite D, (masks_ok _ _ _ F eq_refl eq_refl). cbn [passert bind].
  unfold cross_entropy. cbn [dims]. rewrite map_length, Nat.eqb_refl. destruct l as [|x l]; [contradiction|]. cbn [List.length Nat.eqb negb andb guard bind]. rewrite (labels_ok _ F). cbn [bind].
  eexists. split; [reflexivity|]. unfold outcome. cbn [fst snd dims at_]. split; [reflexivity|]. split; reflexivity.
Qed.
End Batch.

Lemma forward_same a h net l1 l2 n1 n2 r r' : agree_net n1 n2 net -> Forall (fits a h) l1 -> Forall (fits a h) l2 -> nth_error l1 n1 = Some r -> nth_error l2 n2 = Some r' ->
  encode_row a (r_player r') (r_tokens r') = encode_row a (r_player r) (r_tokens r) -> r_state r' = r_state r ->
  exists raw1 raw2 out1 out2, (exists enc, encoder_forward a net l1 = Ok enc /\ raw_logits a h net l1 enc = Ok raw1) /\ forward a net h l1 = Ok out1 /\ forward a net h l2 = Ok out2 /\
    outcome h l1 raw1 out1 /\ outcome h l2 raw2 out2 /\ forall k, at_ raw1 [n1; k] = at_ raw2 [n2; k].
Proof.
  intros Ag F1 F2 I1 I2 Et Es.
  destruct (keeps_encoder a h l1 l2 n1 n2 r r' F1 F2 I1 I2 Et net Ag) as (e1 & e2 & E1 & E2 & Se).
  destruct (keeps_raw a h l1 l2 n1 n2 r r' F1 F2 I1 I2 Et Es net e1 e2 Ag Se) as (x & y & X & Y & D1 & D2 & Ar).
  assert (N1 : l1 <> []) by (intros ->; destruct n1; discriminate I1). assert (N2 : l2 <> []) by (intros ->; destruct n2; discriminate I2).
  destruct (finish a h net l1 e1 x N1 F1 E1 X D1) as (o1 & O1 & P1). destruct (finish a h net l2 e2 y N2 F2 E2 Y D2) as (o2 & O2 & P2).
  exists x, y, o1, o2. split; [eauto|]. repeat (split; [assumption|]). intros k. now apply Ar.
Qed.
Lemma forward_like a h net l1 l2 n1 n2 r r' : agree_net n1 n2 net -> Forall (fits a h) l1 -> Forall (fits a h) l2 -> nth_error l1 n1 = Some r -> nth_error l2 n2 = Some r' ->
  r_tokens r' = r_tokens r -> r_state r' = r_state r -> r_player r' = r_player r ->
  exists raw1 raw2 out1 out2, (exists enc, encoder_forward a net l1 = Ok enc /\ raw_logits a h net l1 enc = Ok raw1) /\ forward a net h l1 = Ok out1 /\ forward a net h l2 = Ok out2 /\
    outcome h l1 raw1 out1 /\ outcome h l2 raw2 out2 /\ forall k, at_ raw1 [n1; k] = at_ raw2 [n2; k].
Proof. intros Ag F1 F2 I1 I2 Et Es Ep. eapply forward_same; eauto. now rewrite Et, Ep. Qed.
Lemma forward_pair a h net l1 l2 n1 n2 r : agree_net n1 n2 net -> Forall (fits a h) l1 -> Forall (fits a h) l2 -> nth_error l1 n1 = Some r -> nth_error l2 n2 = Some r ->
  exists raw1 raw2 out1 out2, (exists enc, encoder_forward a net l1 = Ok enc /\ raw_logits a h net l1 enc = Ok raw1) /\ forward a net h l1 = Ok out1 /\ forward a net h l2 = Ok out2 /\
    outcome h l1 raw1 out1 /\ outcome h l2 raw2 out2 /\ forall k, at_ raw1 [n1; k] = at_ raw2 [n2; k].
Proof. intros Ag F1 F2 I1 I2. eapply forward_like; eauto. Qed.
(** One entry always agrees with itself, and in evaluation mode all entries agree. *)
Lemma agree_self n net : agree_net n n net.
Proof.
  split; apply Forall_forall; intros b _; [split; [split|]|split; [split|split; [split|]]]; repeat intro; reflexivity.
Qed.
Lemma agree_evaluation n1 n2 net : evaluation net -> agree_net n1 n2 net.
Proof.
  intros [E D]. assert (O : forall m, no_drop m -> agree n1 n2 m) by (intros m H t; now rewrite !H).
  assert (P : forall m, evaluation_attention m -> agree_attention n1 n2 m) by (intros m [H1 H2]; split; [intros k; apply O, H1|apply O, H2]).
  split; [eapply Forall_impl; [|exact E]; intros b [H1 H2]; split; auto|eapply Forall_impl; [|exact D]; intros b (H1 & H2 & H3); split; [|split]; auto].
Qed.
Lemma forward_ok a h net l : l <> [] -> Forall (fits a h) l -> exists raw out, (exists enc, encoder_forward a net l = Ok enc /\ raw_logits a h net l enc = Ok raw) /\ forward a net h l = Ok out /\ outcome h l raw out.
Proof.
  intros N F. destruct l as [|r l]; [contradiction|].
  destruct (forward_pair a h net _ _ 0 0 r (agree_self 0 net) F F eq_refl eq_refl) as (x & _ & o & _ & G & E & _ & P & _). exists x, o. auto.
Qed.
