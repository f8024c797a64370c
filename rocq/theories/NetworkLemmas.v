(** Shapes and batch independence of the operations in Network.v.  [same B1 n1 B2 n2 ds x y]:
    x is a batch of B1 and y a batch of B2 tensors of shape [ds], and entry n1 of x is entry
    n2 of y. *)
From Coq Require Import ZArith List Bool Reals String Lia Lra PeanoNat.
From Verif Require Import Base Constants Tensor Encoder EncoderSum Network VecLemmas.
Import ListNotations.
Open Scope R_scope.

Lemma dims_eqb_refl l : dims_eqb l l = true.
Proof. induction l as [|a l IH]; [reflexivity|]. cbn. now rewrite Nat.eqb_refl. Qed.
Lemma dims_eqb_eq a b : dims_eqb a b = true <-> a = b.
Proof.
  split; [|intros ->; apply dims_eqb_refl]. revert b. induction a as [|x a IH]; intros [|y b]; cbn; try discriminate; [reflexivity|].
  intros H. apply andb_prop in H as [H1 H2]. apply Nat.eqb_eq in H1. subst. f_equal. auto.
Qed.
Lemma sum_n_ext n f g : (forall k, (k < n)%nat -> f k = g k) -> sum_n n f = sum_n n g.
Proof.
  unfold sum_n. intros H. assert (G : forall l, (forall k, In k l -> (k < n)%nat) -> fold_right (fun k x => f k + x) 0 l = fold_right (fun k x => g k + x) 0 l).
  { induction l as [|a l IH]; intros Hl; [reflexivity|]. cbn [fold_right]. rewrite H by (apply Hl; now left). f_equal. apply IH. intros k Hk. apply Hl. now right. }
  apply G. intros k Hk. apply in_seq in Hk. lia.
Qed.

Definition same (B1 n1 B2 n2 : nat) (ds : list nat) (x y : tensor) : Prop :=
  dims x = B1 :: ds /\ dims y = B2 :: ds /\ forall t, List.length t = List.length ds -> at_ x (n1 :: t) = at_ y (n2 :: t).

(** The operation succeeds on both batches, with equal results for the two entries. *)
Definition keeps (B1 n1 B2 n2 : nat) (ds' : list nat) (f : res tensor) (g : res tensor) : Prop :=
  exists x y, f = Ok x /\ g = Ok y /\ same B1 n1 B2 n2 ds' x y.

Section Same.
Context (B1 n1 B2 n2 : nat).
Notation same := (same B1 n1 B2 n2).
Notation keeps := (keeps B1 n1 B2 n2).

Lemma keeps_ok ds x y : same ds x y -> keeps ds (Ok x) (Ok y).
Proof. intros H. exists x, y. auto. Qed.
Lemma keeps_bind ds ds' f g (k k' : tensor -> res tensor) : keeps ds f g -> (forall x y, same ds x y -> keeps ds' (k x) (k' y)) -> keeps ds' (bind f k) (bind g k').
Proof. intros (x & y & -> & -> & S) H. cbn [bind]. now apply H. Qed.

Lemma same_pointwise ds f x y : same ds x y -> same ds (pointwise f x) (pointwise f y).
Proof. intros (D1 & D2 & E). split; [exact D1|]. split; [exact D2|]. intros t Ht. cbn [pointwise at_]. now rewrite E. Qed.
Lemma same_relu ds x y : same ds x y -> same ds (relu x) (relu y).
Proof. apply same_pointwise. Qed.
Lemma keeps_plus ds x y x' y' : same ds x y -> same ds x' y' -> keeps ds (plus x x') (plus y y').
Proof.
  intros (D1 & D2 & E) (D3 & D4 & F). unfold plus. rewrite D1, D2, D3, D4, !dims_eqb_refl. cbn [guard bind]. apply keeps_ok.
  split; [reflexivity|]. split; [reflexivity|]. intros t Ht. cbn [at_]. now rewrite E, F.
Qed.

Lemma last_cons_app (b : nat) p n : last (b :: p ++ [n]) 0%nat = n.
Proof. change (b :: p ++ [n]) with ((b :: p) ++ [n]). apply last_last. Qed.
Lemma removelast_cons_app (b : nat) p n : removelast (b :: p ++ [n]) = b :: p.
Proof. change (b :: p ++ [n]) with ((b :: p) ++ [n]). apply removelast_last. Qed.
Lemma split_last (t p : list nat) n : List.length t = List.length (p ++ [n]) -> exists u k, t = u ++ [k] /\ List.length u = List.length p.
Proof.
  rewrite app_length. cbn [List.length]. intros H. destruct (exists_last (l := t)) as (u & k & ->); [destruct t; [cbn in H; lia|discriminate]|].
  exists u, k. split; [reflexivity|]. rewrite app_length in H. cbn [List.length] in H. lia.
Qed.
Lemma same_last p n x y u k : same (p ++ [n]) x y -> List.length u = List.length p -> at_ x (n1 :: u ++ [k]) = at_ y (n2 :: u ++ [k]).
Proof. intros (_ & _ & E) H. apply E. rewrite !app_length, H. reflexivity. Qed.

Lemma keeps_linear p nin nout w x y : same (p ++ [nin]) x y -> keeps (p ++ [nout]) (Linear nin nout w x) (Linear nin nout w y).
Proof.
  intros S. pose proof S as (D1 & D2 & _). unfold Linear. rewrite D1, D2, !last_cons_app, !removelast_cons_app, Nat.eqb_refl.
  cbn [List.length Nat.eqb negb andb guard bind]. apply keeps_ok. split; [reflexivity|]. split; [reflexivity|].
  intros t Ht. apply split_last in Ht as (u & k & -> & Hu). cbn [at_]. rewrite !last_cons_app, !removelast_cons_app. f_equal. apply sum_n_ext. intros e _. f_equal.
  change ((n1 :: u) ++ [e]) with (n1 :: u ++ [e]). change ((n2 :: u) ++ [e]) with (n2 :: u ++ [e]). eapply same_last; eassumption.
Qed.
Lemma keeps_norm p n w x y : same (p ++ [n]) x y -> keeps (p ++ [n]) (LayerNorm n w x) (LayerNorm n w y).
Proof.
  intros S. pose proof S as (D1 & D2 & _). unfold LayerNorm. rewrite D1, D2, !last_cons_app, Nat.eqb_refl.
  cbn [List.length Nat.eqb negb andb guard bind]. apply keeps_ok. split; [reflexivity|]. split; [reflexivity|].
  intros t Ht. apply split_last in Ht as (u & k & -> & Hu). cbn [at_]. rewrite !last_cons_app, !removelast_cons_app.
  assert (Er : forall e, at_ x ((n1 :: u) ++ [e]) = at_ y ((n2 :: u) ++ [e])).
  { intros e. change ((n1 :: u) ++ [e]) with (n1 :: u ++ [e]). change ((n2 :: u) ++ [e]) with (n2 :: u ++ [e]). eapply same_last; eassumption. }
  assert (Em : sum_n n (fun e => at_ x ((n1 :: u) ++ [e])) = sum_n n (fun e => at_ y ((n2 :: u) ++ [e]))) by (apply sum_n_ext; intros e _; apply Er).
  rewrite Em. set (m := sum_n n (fun e => at_ y ((n2 :: u) ++ [e])) / INR n).
  rewrite (sum_n_ext n _ (fun e => (at_ y ((n2 :: u) ++ [e]) - m) * (at_ y ((n2 :: u) ++ [e]) - m))) by (intros e _; now rewrite Er).
  change (n1 :: u ++ [k]) with ((n1 :: u) ++ [k]). change (n2 :: u ++ [k]) with ((n2 :: u) ++ [k]). now rewrite Er.
Qed.

Lemma padded_ext n f g k o : (forall t, f t = g t) -> padded n f k o = padded n g k o.
Proof. intros H. unfold padded. destruct (_ && _); [apply H|reflexivity]. Qed.
Lemma keeps_conv1 cin cout l w x y : same [cin; l] x y -> keeps [cout; l] (Conv1d cin cout w x) (Conv1d cin cout w y).
Proof.
  intros (D1 & D2 & E). unfold Conv1d. rewrite D1, D2, Nat.eqb_refl. cbn [guard bind]. apply keeps_ok. split; [reflexivity|]. split; [reflexivity|].
  intros t Ht. cbn [at_]. destruct t as [|o [|k [|]]]; try discriminate Ht. f_equal. apply sum_n_ext. intros q _. apply sum_n_ext. intros u _. f_equal.
  apply padded_ext. intros t. now apply E.
Qed.
Lemma keeps_conv2 cin cout h l w x y : same [cin; h; l] x y -> keeps [cout; h; l] (Conv2d cin cout w x) (Conv2d cin cout w y).
Proof.
  intros (D1 & D2 & E). unfold Conv2d. rewrite D1, D2, Nat.eqb_refl. cbn [guard bind]. apply keeps_ok. split; [reflexivity|]. split; [reflexivity|].
  intros t Ht. cbn [at_]. destruct t as [|o [|k [|m [|]]]]; try discriminate Ht. f_equal. apply sum_n_ext. intros q _. apply sum_n_ext. intros u _. apply sum_n_ext. intros v _. f_equal.
  apply padded_ext. intros s. apply padded_ext. intros t. now apply E.
Qed.

Lemma unflatten_length ds j : List.length (unflatten ds j) = List.length ds.
Proof. revert j. induction ds as [|d ds IH]; intros j; [reflexivity|]. cbn [unflatten List.length]. now rewrite IH. Qed.
Lemma keeps_flatten ds x y : (0 < B1)%nat -> (0 < B2)%nat -> same ds x y -> keeps [product ds] (flatten x) (flatten y).
Proof.
  intros H1 H2 (D1 & D2 & E). unfold flatten. rewrite D1, D2. destruct (Nat.eqb_spec B1 0); [lia|]. destruct (Nat.eqb_spec B2 0); [lia|]. cbn [negb guard bind].
  apply keeps_ok. split; [reflexivity|]. split; [reflexivity|]. intros t Ht. cbn [at_]. destruct t as [|j [|]]; try discriminate Ht. apply E, unflatten_length.
Qed.

Lemma keeps_cat2 p m n x y x' y' : same (p ++ [m]) x y -> same (p ++ [n]) x' y' -> keeps (p ++ [(m + n)%nat]) (cat2 x x') (cat2 y y').
Proof.
  intros S S'. pose proof S as (D1 & D2 & _). pose proof S' as (D3 & D4 & _). unfold cat2. rewrite D1, D2, D3, D4, !removelast_cons_app, !last_cons_app, !dims_eqb_refl.
  cbn [List.length]. rewrite !app_length. cbn [List.length]. rewrite !Nat.eqb_refl. cbn [Nat.eqb negb andb guard bind]. apply keeps_ok. split; [reflexivity|]. split; [reflexivity|].
  intros t Ht. apply split_last in Ht as (u & k & -> & Hu). cbn [at_]. rewrite !last_cons_app, !removelast_cons_app.
  destruct (Nat.ltb k m).
  - eapply same_last; eassumption.
  - change ((n1 :: u) ++ [(k - m)%nat]) with (n1 :: u ++ [(k - m)%nat]). change ((n2 :: u) ++ [(k - m)%nat]) with (n2 :: u ++ [(k - m)%nat]). eapply same_last; eassumption.
Qed.
Lemma keeps_cat_from p n xs ys : forall m x y, same (p ++ [m]) x y -> Forall2 (same (p ++ [n])) xs ys -> keeps (p ++ [(m + n * List.length xs)%nat]) (cat_from x xs) (cat_from y ys).
Proof.
  intros m x y S F. revert m x y S. induction F as [|x' y' xs ys S' F IH]; intros m x y S; cbn [cat_from List.length].
  - rewrite Nat.mul_0_r, Nat.add_0_r. now apply keeps_ok.
  - eapply keeps_bind; [exact (keeps_cat2 _ _ _ _ _ _ _ S S')|]. intros z z' Sz.
    replace (m + n * Datatypes.S (List.length xs))%nat with (m + n + n * List.length xs)%nat by lia. now apply IH.
Qed.
Lemma keeps_cat p n xs ys : xs <> [] -> Forall2 (same (p ++ [n])) xs ys -> keeps (p ++ [(n * List.length xs)%nat]) (cat xs) (cat ys).
Proof.
  intros N F. destruct F as [|x y xs ys S F]; [contradiction|]. cbn [cat List.length].
  replace (n * Datatypes.S (List.length xs))%nat with (n + n * List.length xs)%nat by lia. now apply keeps_cat_from.
Qed.

Lemma keeps_unsqueeze ds x y : same ds x y -> keeps (1%nat :: ds) (unsqueeze1 x) (unsqueeze1 y).
Proof.
  intros (D1 & D2 & E). unfold unsqueeze1. rewrite D1, D2. apply keeps_ok. split; [reflexivity|]. split; [reflexivity|].
  intros t Ht. cbn [at_]. destruct t as [|j t]; [discriminate Ht|]. apply E. cbn [List.length] in Ht. lia.
Qed.
Lemma keeps_squeeze ds x y : same (1%nat :: ds) x y -> keeps ds (squeeze1 x) (squeeze1 y).
Proof.
  intros (D1 & D2 & E). unfold squeeze1. rewrite D1, D2. apply keeps_ok. split; [reflexivity|]. split; [reflexivity|].
  intros t Ht. cbn [at_]. apply E. cbn [List.length]. now rewrite Ht.
Qed.
Lemma keeps_transpose m n x y : same [m; n] x y -> keeps [n; m] (transpose12 x) (transpose12 y).
Proof.
  intros (D1 & D2 & E). unfold transpose12. rewrite D1, D2. apply keeps_ok. split; [reflexivity|]. split; [reflexivity|].
  intros t Ht. cbn [at_]. destruct t as [|j [|k [|]]]; try discriminate Ht. now apply E.
Qed.
Lemma keeps_bmm n m k x y x' y' : same [n; m] x y -> same [m; k] x' y' -> keeps [n; k] (bmm x x') (bmm y y').
Proof.
  intros (D1 & D2 & E) (D3 & D4 & F). unfold bmm. rewrite D1, D2, D3, D4, !Nat.eqb_refl. cbn [andb guard bind]. apply keeps_ok. split; [reflexivity|]. split; [reflexivity|].
  intros t Ht. cbn [at_]. destruct t as [|j [|c [|]]]; try discriminate Ht. apply sum_n_ext. intros e _. now rewrite E, F by reflexivity.
Qed.
Lemma keeps_softmax p n x y : same (p ++ [n]) x y -> keeps (p ++ [n]) (softmax x) (softmax y).
Proof.
  intros S. pose proof S as (D1 & D2 & E). unfold softmax. rewrite D1, D2. cbn [List.length Nat.eqb negb guard bind]. rewrite !last_cons_app. apply keeps_ok. split; [reflexivity|]. split; [reflexivity|].
  intros t Ht. pose proof (E t Ht) as E0. apply split_last in Ht as (u & k & -> & Hu). cbn [at_]. rewrite !removelast_cons_app, E0. f_equal. apply sum_n_ext. intros e _. f_equal.
  change ((n1 :: u) ++ [e]) with (n1 :: u ++ [e]). change ((n2 :: u) ++ [e]) with (n2 :: u ++ [e]). eapply same_last; eassumption.
Qed.

(** ** Dropout *)
(** The factors for the two entries are the same. *)
Definition agree (m : list nat -> R) : Prop := forall t, m (n1 :: t) = m (n2 :: t).
Definition agree_attention (m : attention) : Prop := (forall k, agree (h_drop (m_heads m k))) /\ agree (m_drop m).
Definition agree_enc (b : enc_block) : Prop := agree_attention (e_self b) /\ agree (f_drop (e_ff b)).
Definition agree_dec (b : dec_block) : Prop := agree_attention (d_self b) /\ agree_attention (d_cross b) /\ agree (f_drop (d_ff b)).
Definition agree_net (net : network) : Prop := Forall agree_enc (k_enc net) /\ Forall agree_dec (k_dec net).
Lemma same_dropout m ds x y : agree m -> same ds x y -> same ds (dropout m x) (dropout m y).
Proof. intros A (D1 & D2 & E). split; [exact D1|]. split; [exact D2|]. intros t Ht. cbn [dropout at_]. now rewrite (E t Ht), A. Qed.

(** ** Layers *)
Lemma keeps_head size h T Q k k' v v' q q' : agree (h_drop h) -> same [T; EMBD] k k' -> same [T; EMBD] v v' -> same [Q; EMBD] q q' -> keeps [Q; size] (Head size h k v q) (Head size h k' v' q').
Proof.
  intros Ag Sk Sv Sq. unfold Head.
  apply (keeps_bind [T; size]); [exact (keeps_linear [T] EMBD size _ _ _ Sk)|]. intros k1 k1' Sk1.
  apply (keeps_bind [Q; size]); [exact (keeps_linear [Q] EMBD size _ _ _ Sq)|]. intros q1 q1' Sq1.
  apply (keeps_bind [T; size]); [exact (keeps_linear [T] EMBD size _ _ _ Sv)|]. intros v1 v1' Sv1.
  apply (keeps_bind [size; T]); [exact (keeps_transpose _ _ _ _ Sk1)|]. intros kt kt' Skt.
  apply (keeps_bind [Q; T]); [exact (keeps_bmm _ _ _ _ _ _ _ Sq1 Skt)|]. intros w w' Sw.
  apply (keeps_bind [Q; T]).
  - pose proof Sk1 as (D1 & D2 & _). rewrite D1, D2. cbn [last].
    exact (keeps_softmax [Q] T _ _ (same_pointwise _ _ _ _ Sw)).
  - intros s s' Ss. exact (keeps_bmm _ _ _ _ _ _ _ (same_dropout _ _ _ _ Ag Ss) Sv1).
Qed.
Lemma keeps_mapM {A} (f g : A -> res tensor) ds l : (forall a, keeps ds (f a) (g a)) -> exists xs ys, mapM f l = Ok xs /\ mapM g l = Ok ys /\ Forall2 (same ds) xs ys /\ List.length xs = List.length l.
Proof.
  intros H. induction l as [|a l (xs & ys & E1 & E2 & F & N)]; [exists [], []; repeat split; constructor|].
  destruct (H a) as (x & y & H1 & H2 & S). cbn [mapM]. rewrite H1, H2, E1, E2. cbn [bind]. exists (x :: xs), (y :: ys). repeat split; [now constructor|cbn; now rewrite N].
Qed.
Lemma keeps_attention m T Q k k' v v' q q' : agree_attention m -> same [T; EMBD] k k' -> same [T; EMBD] v v' -> same [Q; EMBD] q q' ->
  keeps [Q; EMBD] (MultiHeadAttention N_HEADS (EMBD / N_HEADS) m k v q) (MultiHeadAttention N_HEADS (EMBD / N_HEADS) m k' v' q').
Proof.
  intros [Ah Am] Sk Sv Sq. unfold MultiHeadAttention.
  destruct (keeps_mapM (fun h => Head (EMBD / N_HEADS) (m_heads m h) k v q) (fun h => Head (EMBD / N_HEADS) (m_heads m h) k' v' q') [Q; (EMBD / N_HEADS)%nat] (seq 0 N_HEADS)) as (xs & ys & E1 & E2 & F & N).
  { intros h. exact (keeps_head _ _ T Q _ _ _ _ _ _ (Ah h) Sk Sv Sq). }
  rewrite E1, E2. cbn [bind]. rewrite seq_length in N.
  apply (keeps_bind ([Q] ++ [(EMBD / N_HEADS * N_HEADS)%nat])).
  - pose proof (keeps_cat [Q] (EMBD / N_HEADS) xs ys) as K. rewrite N in K. apply K; [|exact F]. intros ->. discriminate N.
  - intros z z' Sz. apply (keeps_bind [Q; EMBD]); [exact (keeps_linear [Q] _ EMBD _ _ _ Sz)|]. intros w w' Sw. apply keeps_ok. now apply same_dropout.
Qed.
Lemma keeps_ff g f p x y : agree (f_drop f) -> same (p ++ [EMBD]) x y -> keeps (p ++ [EMBD]) (FeedForward g f x) (FeedForward g f y).
Proof.
  intros Ag S. unfold FeedForward. eapply keeps_bind; [exact (keeps_linear p _ _ _ _ _ S)|]. intros z z' Sz.
  eapply keeps_bind; [exact (keeps_linear p _ _ _ _ _ (same_pointwise _ _ _ _ Sz))|]. intros w w' Sw. apply keeps_ok. now apply same_dropout.
Qed.
Lemma keeps_encoder_block g b T x y : agree_enc b -> same [T; EMBD] x y -> keeps [T; EMBD] (EncoderBlock g b x) (EncoderBlock g b y).
Proof.
  intros [As Af] S. unfold EncoderBlock.
  apply (keeps_bind [T; EMBD]); [exact (keeps_norm [T] _ _ _ _ S)|]. intros n n' Sn.
  apply (keeps_bind [T; EMBD]); [exact (keeps_attention _ T T _ _ _ _ _ _ As Sn Sn Sn)|]. intros s s' Ss.
  apply (keeps_bind [T; EMBD]); [exact (keeps_plus _ _ _ _ _ S Ss)|]. intros x1 y1 S1.
  apply (keeps_bind [T; EMBD]); [exact (keeps_norm [T] _ _ _ _ S1)|]. intros m m' Sm.
  apply (keeps_bind [T; EMBD]); [exact (keeps_ff _ _ [T] _ _ Af Sm)|]. intros f f' Sf.
  exact (keeps_plus _ _ _ _ _ S1 Sf).
Qed.
Definition inner (a : agent) : list nat := match a with ORDERED => [1%nat; EMBD] | _ => [EMBD] end.
Lemma keeps_decoder_block a g b T enc enc' x y : agree_dec b -> same [T; EMBD] enc enc' -> same (inner a) x y -> keeps (inner a) (DecoderBlock a g b enc x) (DecoderBlock a g b enc' y).
Proof.
  intros (As & Ac & Af) Se S. assert (O : a = ORDERED \/ a <> ORDERED) by (destruct a; auto; right; discriminate). destruct O as [-> |N].
  - cbn [inner] in *. unfold DecoderBlock.
    apply (keeps_bind [1%nat; EMBD]); [exact (keeps_norm [1%nat] _ _ _ _ S)|]. intros n n' Sn.
    apply (keeps_bind [1%nat; EMBD]); [exact (keeps_attention _ 1 1 _ _ _ _ _ _ As Sn Sn Sn)|]. intros s s' Ss.
    apply (keeps_bind [1%nat; EMBD]); [exact (keeps_plus _ _ _ _ _ S Ss)|]. intros x1 y1 S1.
    apply (keeps_bind [1%nat; EMBD]); [exact (keeps_norm [1%nat] _ _ _ _ S1)|]. intros m m' Sm.
    apply (keeps_bind [1%nat; EMBD]); [exact (keeps_attention _ T 1 _ _ _ _ _ _ Ac Se Se Sm)|]. intros c c' Sc.
    apply (keeps_bind [1%nat; EMBD]); [exact (keeps_plus _ _ _ _ _ S1 Sc)|]. intros x2 y2 S2.
    apply (keeps_bind [1%nat; EMBD]); [exact (keeps_norm [1%nat] _ _ _ _ S2)|]. intros o o' So.
    apply (keeps_bind [1%nat; EMBD]); [exact (keeps_ff _ _ [1%nat] _ _ Af So)|]. intros f f' Sf.
    exact (keeps_plus _ _ _ _ _ S2 Sf).
  - assert (Si : same [EMBD] x y) by (destruct a; try contradiction; exact S).
    assert (G : keeps [EMBD] (DecoderBlock TF g b enc x) (DecoderBlock TF g b enc' y)); [|destruct a; try contradiction; exact G].
    unfold DecoderBlock.
    apply (keeps_bind [EMBD]); [exact (keeps_norm [] _ _ _ _ Si)|]. intros n0 n0' Sn0.
    apply (keeps_bind [1%nat; EMBD]); [exact (keeps_unsqueeze _ _ _ Sn0)|]. intros n n' Sn.
    apply (keeps_bind [1%nat; EMBD]); [exact (keeps_attention _ T 1 _ _ _ _ _ _ As Se Se Sn)|]. intros s0 s0' Ss0.
    apply (keeps_bind [EMBD]); [exact (keeps_squeeze _ _ _ Ss0)|]. intros s s' Ss.
    apply (keeps_bind [EMBD]); [exact (keeps_plus _ _ _ _ _ Si Ss)|]. intros x1 y1 S1.
    apply (keeps_bind [EMBD]); [exact (keeps_norm [] _ _ _ _ S1)|]. intros m0 m0' Sm0.
    apply (keeps_bind [1%nat; EMBD]); [exact (keeps_unsqueeze _ _ _ Sm0)|]. intros m m' Sm.
    apply (keeps_bind [1%nat; EMBD]); [exact (keeps_attention _ T 1 _ _ _ _ _ _ Ac Se Se Sm)|]. intros c0 c0' Sc0.
    apply (keeps_bind [EMBD]); [exact (keeps_squeeze _ _ _ Sc0)|]. intros c c' Sc.
    apply (keeps_bind [EMBD]); [exact (keeps_plus _ _ _ _ _ S1 Sc)|]. intros x2 y2 S2.
    apply (keeps_bind [EMBD]); [exact (keeps_norm [] _ _ _ _ S2)|]. intros o o' So.
    apply (keeps_bind [EMBD]); [exact (keeps_ff _ _ [] _ _ Af So)|]. intros f f' Sf.
    exact (keeps_plus _ _ _ _ _ S2 Sf).
Qed.
Lemma keeps_fold {A} (f g : tensor -> A -> res tensor) ds l (P : A -> Prop) : (forall a x y, P a -> same ds x y -> keeps ds (f x a) (g y a)) -> Forall P l -> forall x y, same ds x y -> keeps ds (foldM f x l) (foldM g y l).
Proof.
  intros H F. induction F as [|a l Pa _ IH]; intros x y S; cbn [foldM]; [now apply keeps_ok|]. eapply keeps_bind; [apply H; [exact Pa|exact S]|]. intros x' y' S'. now apply IH.
Qed.

Definition planes_shape (a : agent) : list nat := match a with TF => [3; 37]%nat | CONV | LARGE => [3; 37; 4]%nat | ORDERED => [6; 37; 4]%nat end.
Lemma cat_rows_ok xs : Forall (fun x => List.length (dims x) = 2%nat) xs -> cat_rows xs = cat xs.
Proof.
  intros F. unfold cat_rows. replace (forallb (fun x => Nat.eqb (List.length (dims x)) 2) xs) with true; [reflexivity|]. symmetry. apply forallb_forall. rewrite Forall_forall in F.
  intros x Hx. apply Nat.eqb_eq. auto.
Qed.
Lemma two n x y : same [n] x y -> List.length (dims x) = 2%nat /\ List.length (dims y) = 2%nat.
Proof. intros (-> & -> & _). auto. Qed.

Lemma keeps_state a s x1 y1 x2 y2 x3 y3 : (0 < B1)%nat -> (0 < B2)%nat -> same (planes_shape a) x1 y1 -> same [7; 4]%nat x2 y2 -> same [4]%nat x3 y3 ->
  keeps [EMBD] (StateNet a s x1 x2 x3) (StateNet a s y1 y2 y3).
Proof.
  intros H1 H2 S1 S2 S3. unfold StateNet.
  pose (c := match a with TF => [16; 37]%nat | CONV | LARGE => [8; 37; 4]%nat | ORDERED => [16; 37; 4]%nat end).
  apply (keeps_bind c).
  { destruct a; cbn [planes_shape] in S1; subst c.
    - apply (keeps_bind [8; 37]%nat); [exact (keeps_conv1 3 8 37 _ _ _ S1)|]. intros u u' Su.
      apply (keeps_bind [16; 37]%nat); [exact (keeps_conv1 8 16 37 _ _ _ (same_relu _ _ _ Su))|]. intros v v' Sv.
      pose proof Sv as (D1 & D2 & _). rewrite D1, D2. cbn [hd]. destruct (Nat.ltb_spec 0 B1); [|lia]. destruct (Nat.ltb_spec 0 B2); [|lia]. cbn [passert bind]. now apply keeps_ok.
    - apply (keeps_bind [8; 37; 4]%nat); [exact (keeps_conv2 3 8 37 4 _ _ _ S1)|]. intros u u' Su. exact (keeps_conv2 8 8 37 4 _ _ _ (same_relu _ _ _ Su)).
    - apply (keeps_bind [8; 37; 4]%nat); [exact (keeps_conv2 3 8 37 4 _ _ _ S1)|]. intros u u' Su. exact (keeps_conv2 8 8 37 4 _ _ _ (same_relu _ _ _ Su)).
    - apply (keeps_bind [8; 37; 4]%nat); [exact (keeps_conv2 6 8 37 4 _ _ _ S1)|]. intros u u' Su. exact (keeps_conv2 8 16 37 4 _ _ _ (same_relu _ _ _ Su)). }
  intros u u' Su. apply (keeps_bind [product c]); [exact (keeps_flatten _ _ _ H1 H2 (same_relu _ _ _ Su))|]. intros fl fl' Sf.
  apply (keeps_bind [product (planes_shape a)]); [exact (keeps_flatten _ _ _ H1 H2 S1)|]. intros raw raw' Sr.
  apply (keeps_bind ([] ++ [(product c + product (planes_shape a))%nat])).
  { destruct (two _ _ _ Sf), (two _ _ _ Sr). rewrite !cat_rows_ok by (repeat constructor; assumption). cbn [cat cat_from].
    eapply keeps_bind; [exact (keeps_cat2 [] _ _ _ _ _ _ Sf Sr)|]. intros z z' Sz. now apply keeps_ok. }
  intros cb cb' Sc.
  apply (keeps_bind [64%nat]).
  { replace (match a with TF => 16 * 37 + 3 * 37 | CONV | LARGE => 8 * 37 * 4 + 3 * 37 * 4 | ORDERED => 16 * 37 * 4 + 6 * 37 * 4 end)%nat with (product c + product (planes_shape a))%nat by (subst c; destruct a; reflexivity).
    exact (keeps_linear [] _ 64 _ _ _ Sc). }
  intros p p' Sp. apply (keeps_bind [28%nat]); [exact (keeps_flatten _ _ _ H1 H2 S2)|]. intros x2f y2f S2f.
  apply (keeps_bind [96%nat]).
  { pose proof (same_relu _ _ _ Sp) as Spr. destruct (two _ _ _ Spr), (two _ _ _ S2f), (two _ _ _ S3). rewrite !cat_rows_ok by (repeat constructor; assumption). cbn [cat cat_from].
    apply (keeps_bind [92%nat]); [exact (keeps_cat2 [] 64 28 _ _ _ _ Spr S2f)|]. intros z z' Sz.
    apply (keeps_bind [96%nat]); [exact (keeps_cat2 [] 92 4 _ _ _ _ Sz S3)|]. intros z2 z2' Sz2. now apply keeps_ok. }
  intros al al' Sa. apply (keeps_bind [EMBD]); [exact (keeps_linear [] 96 EMBD _ _ _ Sa)|]. intros w w' Sw.
  apply (keeps_bind [EMBD]); [exact (keeps_linear [] EMBD EMBD _ _ _ (same_relu _ _ _ Sw))|]. intros v v' Sv. apply keeps_ok. now apply same_relu.
Qed.
End Same.
