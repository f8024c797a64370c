(** The state network computes the formula of SpecState.v. *)
From Coq Require Import ZArith List Bool Reals Lia Lra PeanoNat.
From Verif Require Import Base Constants SpecTokens Tensor Encoder EncoderLemmas EncoderSum Network NetworkLemmas SpecNetwork NetworkForward SpecAttention AttentionLemmas VecLemmas SpecState.
Import ListNotations.
Open Scope R_scope.

Lemma near_padded n g k u : padded n g k u = near n g k u.
Proof.
  unfold padded, near. destruct (Nat.eqb_spec (k + u) 0) as [-> |N]; [reflexivity|]. destruct (Nat.leb_spec 1 (k + u)); [|lia]. cbn [andb].
  destruct (Nat.leb_spec (k + u) n), (Nat.ltb_spec (k + u - 1) n); try lia; reflexivity.
Qed.
Lemma near_ext n g g' k u : (forall s, g s = g' s) -> near n g k u = near n g' k u.
Proof. intros A. unfold near. destruct (Nat.eqb _ _); [reflexivity|]. destruct (Nat.ltb _ _); [apply A|reflexivity]. Qed.

Section One.
  Context (B i : nat) (HB : (0 < B)%nat).
  Definition line (c : nat) (x : tensor) (g : nat -> nat -> nat -> R) : Prop := dims x = [B; c; 37%nat] /\ forall q s, at_ x [i; q; s] = g q s 0%nat.
  Definition square (c : nat) (x : tensor) (g : nat -> nat -> nat -> R) : Prop := dims x = [B; c; 37%nat; 4%nat] /\ forall q s t, at_ x [i; q; s; t] = g q s t.
  Lemma line_conv cin cout p x g : line cin x g -> exists y, Conv1d cin cout p x = Ok y /\ line cout y (along p cin g).
  Proof.
    intros [D A]. unfold Conv1d. rewrite D, Nat.eqb_refl. cbn [guard bind]. eexists. split; [reflexivity|]. split; [reflexivity|]. intros o k. cbn [at_]. unfold along. rewrite sum_total. f_equal.
    apply total_ext. intros q _. rewrite sum_total. apply total_ext. intros u _. rewrite near_padded. f_equal. apply near_ext. intros s. apply A.
  Qed.
  Lemma square_conv cin cout p x g : square cin x g -> exists y, Conv2d cin cout p x = Ok y /\ square cout y (across p cin g).
  Proof.
    intros [D A]. unfold Conv2d. rewrite D, Nat.eqb_refl. cbn [guard bind]. eexists. split; [reflexivity|]. split; [reflexivity|]. intros o k m. cbn [at_]. unfold across. rewrite sum_total. f_equal.
    apply total_ext. intros q _. rewrite sum_total. apply total_ext. intros u _. rewrite sum_total. apply total_ext. intros v _. rewrite near_padded. f_equal. apply near_ext. intros s.
    rewrite near_padded. apply near_ext. intros t. apply A.
  Qed.
  Lemma line_relu c x g : line c x g -> line c (relu x) (clipped g).
  Proof. intros [D A]. split; [exact D|]. intros q s. cbn [relu pointwise at_]. rewrite A. reflexivity. Qed.
  Lemma square_relu c x g : square c x g -> square c (relu x) (clipped g).
  Proof. intros [D A]. split; [exact D|]. intros q s t. cbn [relu pointwise at_]. rewrite A. reflexivity. Qed.
  Lemma vec_relu w x f : vec B i w x f -> vec B i w (relu x) (fun d => positive_part (f d)).
  Proof. intros [D A]. split; [exact D|]. intros d Hd. cbn [relu pointwise at_]. rewrite A by exact Hd. reflexivity. Qed.
  Lemma B_not0 : Nat.eqb B 0 = false.
  Proof using HB. apply Nat.eqb_neq. lia. Qed.
  Lemma line_flat c x g : line c x g -> givesv B i (c * 37 * 1) (flatten x) (in_a_row 1 g).
  Proof using HB.
    intros [D A]. unfold flatten. rewrite D, B_not0. cbn [negb guard bind]. apply givesv_ok. split; [cbn [dims]; unfold product; cbn [fold_right]; f_equal; f_equal; lia|]. intros j _.
    cbn [at_ unflatten]. unfold product, in_a_row. cbn [fold_right]. rewrite A, Nat.mul_1_r. reflexivity.
  Qed.
  Lemma square_flat c x g : square c x g -> givesv B i (c * 37 * 4) (flatten x) (in_a_row 4 g).
  Proof using HB.
    intros [D A]. unfold flatten. rewrite D, B_not0. cbn [negb guard bind]. apply givesv_ok. split; [cbn [dims]; unfold product; cbn [fold_right]; f_equal; f_equal; lia|]. intros j _.
    cbn [at_ unflatten]. unfold product, in_a_row. cbn [fold_right]. rewrite A, !Nat.mul_1_r. f_equal. apply Nat.div_1_r.
  Qed.
  Lemma vec_cat m n x y f g : vec B i m x f -> vec B i n y g -> givesv B i (m + n) (cat2 x y) (beside m f g).
  Proof.
    intros [D A] [D' A']. unfold cat2. rewrite D, D'. cbn [List.length last removelast Nat.eqb negb andb]. rewrite dims_eqb_refl. cbn [andb guard bind app]. apply givesv_ok. split; [reflexivity|].
    intros d Hd. cbn [at_ last removelast app]. unfold beside. destruct (Nat.ltb_spec d m); [now apply A|apply A'; lia].
  Qed.
  Lemma vec_two m x f : vec B i m x f -> List.length (dims x) = 2%nat.
  Proof. intros [-> _]. reflexivity. Qed.
  Lemma vec_rows2 m n x y f g : vec B i m x f -> vec B i n y g -> givesv B i (m + n) (cat_rows [x; y]) (beside m f g).
  Proof.
    intros V W. rewrite cat_rows_ok by (repeat constructor; eapply vec_two; eassumption). cbn [cat cat_from]. destruct (vec_cat _ _ _ _ _ _ V W) as (z & -> & Z). cbn [bind]. exists z. auto.
  Qed.
  Lemma vec_rows3 m n o x y z f g k : vec B i m x f -> vec B i n y g -> vec B i o z k -> givesv B i (m + n + o) (cat_rows [x; y; z]) (beside (m + n) (beside m f g) k).
  Proof.
    intros V W U. rewrite cat_rows_ok by (repeat constructor; eapply vec_two; eassumption). cbn [cat cat_from]. destruct (vec_cat _ _ _ _ _ _ V W) as (v & -> & Z). cbn [bind].
    destruct (vec_cat _ _ _ _ _ _ Z U) as (w & -> & Z'). cbn [bind]. exists w. auto.
  Qed.
  (** The part after the convolutions *)
  Lemma tail_ok s n m c1 r1 x2 x3 fl f f2 f3 : vec B i n c1 fl -> vec B i m r1 f -> vec B i 28 x2 f2 -> vec B i 4 x3 f3 ->
    givesv B i 64 (comb <- cat_rows [c1; r1] ;; p <- Linear (n + m) 64 (s_fc1 s) comb ;; all <- cat_rows [relu p; x2; x3] ;;
      x <- Linear 96 64 (s_main1 s) all ;; x <- Linear 64 64 (s_main2 s) (relu x) ;; Ok (relu x))
      (fun d => positive_part (applied (s_main2 s) 64 (fun j => positive_part (applied (s_main1 s) 96 (beside 92 (beside 64 (fun j => positive_part (applied (s_fc1 s) (n + m) (beside n fl f) j)) f2) f3) j)) d)).
  Proof.
    intros V W V2 V3. destruct (vec_rows2 _ _ _ _ _ _ V W) as (cb & -> & C). cbn [bind]. destruct (givesv_linear B i _ 64 (s_fc1 s) _ _ C) as (p & -> & P). cbn [bind].
    destruct (vec_rows3 _ _ _ _ _ _ _ _ _ (vec_relu _ _ _ P) V2 V3) as (al & -> & Al). cbn [bind]. change (64 + 28 + 4)%nat with 96%nat in Al. change (64 + 28)%nat with 92%nat in Al.
    destruct (givesv_linear B i 96 64 (s_main1 s) _ _ Al) as (u & -> & U). cbn [bind]. destruct (givesv_linear B i 64 64 (s_main2 s) _ _ (vec_relu _ _ _ U)) as (v & -> & Vv). cbn [bind].
    apply givesv_ok. exact (vec_relu _ _ _ Vv).
  Qed.
End One.

Lemma entry_count a f q s t : a <> TF -> entry1 a f [q; s; t] = count_of f q s t.
Proof. destruct a; [contradiction| | |]; reflexivity. Qed.
Lemma state_ok a h net l n r : Forall (fits a h) l -> nth_error l n = Some r ->
  exists x1 x2 x3 x, stack1 a l = Ok x1 /\ stack2 l = Ok x2 /\ stack3 l = Ok x3 /\ StateNet a (k_state net) x1 x2 x3 = Ok x /\ vec (List.length l) n 64 x (state_vector a (k_state net) (r_state r)).
Proof.
  intros F I. assert (HB : (0 < List.length l)%nat) by (destruct l; [destruct n; discriminate I|cbn; lia]). assert (N : l <> []) by (destruct l; [cbn in HB; lia|discriminate]).
  destruct (stack1_ok a h l N F) as (x1 & E1 & D1 & A1). destruct (stack2_ok a h l N F) as (x2 & E2 & D2 & A2). destruct (stack3_ok a h l N F) as (x3 & E3 & D3 & A3).
  assert (V3 : vec (List.length l) n 4 x3 (fun j => IZR (nth j (f_x3 (r_state r)) 0%Z))). { split; [exact D3|]. intros d _. rewrite A3, I. reflexivity. }
  assert (V2 : givesv (List.length l) n 28 (flatten x2) (fun j => IZR (nth (j mod 4) (nth (j / 4) (f_x2 (r_state r)) []) 0%Z))).
  { unfold flatten. rewrite D2, (B_not0 _ HB). cbn [negb guard bind]. apply givesv_ok. split; [reflexivity|]. intros j _. cbn [at_ unflatten]. rewrite A2, I. unfold nth2, product. cbn [fold_right].
    rewrite Nat.mul_1_r, Nat.div_1_r. reflexivity. }
  destruct V2 as (y2 & E2' & V2). set (s := k_state net). cut (givesv (List.length l) n 64 (StateNet a s x1 x2 x3) (state_vector a s (r_state r))).
  { intros (x & E & V). exists x1, x2, x3, x. auto. }
  assert (T : a = TF \/ a <> TF) by (destruct a; auto; right; discriminate). unfold StateNet. change EMBD with 64%nat. change (64 + 7 * 4 + 4)%nat with 96%nat. destruct T as [-> |NT].
  - assert (L : line (List.length l) n 3 x1 (count_of (r_state r))). { split; [exact D1|]. intros q t. rewrite A1, I. reflexivity. }
    destruct (line_conv _ n 3 8 (s_conv_a s) x1 _ L) as (c & -> & C). cbn [bind]. destruct (line_conv _ n 8 16 (s_conv_b s) _ _ (line_relu _ _ _ _ _ C)) as (c' & -> & C'). cbn [bind].
    pose proof C' as [Dc _]. rewrite Dc. cbn [hd]. destruct (Nat.ltb_spec 0 (List.length l)); [|lia]. cbn [passert bind].
    destruct (line_flat _ n HB _ _ _ (line_relu _ _ _ _ _ C')) as (fl & -> & Fl). cbn [bind]. destruct (line_flat _ n HB _ _ _ L) as (raw & -> & Raw). cbn [bind]. rewrite E2'. cbn [bind].
    exact (tail_ok _ n HB s _ _ _ _ _ _ _ _ _ _ Fl Raw V2 V3).
  - assert (L : square (List.length l) n (channels a) x1 (count_of (r_state r))).
    { split; [rewrite D1; destruct a; [contradiction| | |]; reflexivity|]. intros q t u. rewrite A1, I. now apply entry_count. }
    assert (G : givesv (List.length l) n 64 (c <- (c <- Conv2d (channels a) 8 (s_conv2_a s) x1 ;; Conv2d 8 (made a) (s_conv2_b s) (relu c)) ;; flat <- flatten (relu c) ;; raw <- flatten x1 ;;
      comb <- cat_rows [flat; raw] ;; p <- Linear (made a * 37 * 4 + channels a * 37 * 4) 64 (s_fc1 s) comb ;; x2f <- flatten x2 ;; all <- cat_rows [relu p; x2f; x3] ;;
      x <- Linear 96 64 (s_main1 s) all ;; x <- Linear 64 64 (s_main2 s) (relu x) ;; Ok (relu x)) (state_vector a s (r_state r))).
    { destruct (square_conv _ n _ 8 (s_conv2_a s) x1 _ L) as (c & -> & C). cbn [bind]. destruct (square_conv _ n 8 (made a) (s_conv2_b s) _ _ (square_relu _ _ _ _ _ C)) as (c' & -> & C'). cbn [bind].
      destruct (square_flat _ n HB _ _ _ (square_relu _ _ _ _ _ C')) as (fl & -> & Fl). cbn [bind]. destruct (square_flat _ n HB _ _ _ L) as (raw & -> & Raw). cbn [bind]. rewrite E2'. cbn [bind].
      pose proof (tail_ok _ n HB s _ _ _ _ _ _ _ _ _ _ Fl Raw V2 V3) as K. replace (state_vector a s (r_state r)) with (fun d => positive_part (applied (s_main2 s) 64 (fun j => positive_part (applied (s_main1 s) 96 (beside 92 (beside 64 (fun j => positive_part (applied (s_fc1 s) (made a * 37 * 4 + channels a * 37 * 4) (beside (made a * 37 * 4) (in_a_row 4 (clipped (across (s_conv2_b s) 8 (clipped (across (s_conv2_a s) (channels a) (count_of (r_state r))))))) (in_a_row 4 (count_of (r_state r)))) j)) (fun j => IZR (nth (j mod 4) (nth (j / 4) (f_x2 (r_state r)) []) 0%Z))) (fun j => IZR (nth j (f_x3 (r_state r)) 0%Z))) j)) d)) by (destruct a; [contradiction| | |]; reflexivity).
      exact K. }
    destruct a; [contradiction| | |]; exact G.
Qed.
