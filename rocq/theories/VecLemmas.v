(** Facts about lists used as vectors, and inversion of the exception monad. *)
From Coq Require Import ZArith List Bool Lia PeanoNat.
From Verif Require Import Base.
Import ListNotations.
Open Scope Z_scope.

(** ** The monad *)
Lemma bind_ok {A B} (m : res A) (k : A -> res B) b : bind m k = Ok b -> exists a, m = Ok a /\ k a = Ok b.
Proof. destruct m; cbn; [eauto|discriminate]. Qed.
Lemma passert_ok b u : passert b = Ok u -> b = true.
Proof. destruct b; [reflexivity|discriminate]. Qed.
Lemma mapM_ok {A B} (f : A -> res B) l r : mapM f l = Ok r -> Forall2 (fun x y => f x = Ok y) l r.
Proof.
  revert r. induction l as [|x l IH]; cbn; intros r H.
  - injection H as <-. constructor.
  - apply bind_ok in H as (y & E & H). apply bind_ok in H as (ys & E2 & H). injection H as <-. constructor; auto.
Qed.
Lemma Forall2_mapM {A B} (f : A -> res B) l r : Forall2 (fun x y => f x = Ok y) l r -> mapM f l = Ok r.
Proof. induction 1 as [|x y l r H _ IH]; cbn; [reflexivity|]. now rewrite H, IH. Qed.
Lemma Forall2_len {A B} (R : A -> B -> Prop) l r : Forall2 R l r -> length l = length r.
Proof. induction 1; cbn; congruence. Qed.
Lemma foldM_app {A S} (f : S -> A -> res S) s l1 l2 :
  foldM f s (l1 ++ l2) = (s' <- foldM f s l1 ;; foldM f s' l2).
Proof. revert s. induction l1 as [|x l1 IH]; intros s; cbn; [reflexivity|]. destruct (f s x); cbn; auto. Qed.
(** An invariant of a fold. *)
Lemma foldM_inv {A S} (f : S -> A -> res S) (I : list A -> S -> Prop) s0 l s :
  I [] s0 -> (forall h x s s', I h s -> f s x = Ok s' -> I (h ++ [x]) s') ->
  foldM f s0 l = Ok s -> I l s.
Proof.
  intros H0 Hs. assert (G : forall l h s1, I h s1 -> foldM f s1 l = Ok s -> I (h ++ l) s).
  { clear l. induction l as [|x l IH]; cbn; intros h s1 H E.
    - injection E as <-. now rewrite app_nil_r.
    - apply bind_ok in E as (s2 & E1 & E2). specialize (IH (h ++ [x]) s2 (Hs _ _ _ _ H E1) E2).
      now rewrite <- app_assoc in IH. }
  intros E. exact (G l [] s0 H0 E).
Qed.

Ltac binv H :=
  repeat match type of H with
  | bind _ _ = Ok _ => let x := fresh "x" in let E := fresh "E" in apply bind_ok in H; destruct H as (x & E & H); cbv beta in H
  end.

Lemma py_index_ok n i k : py_index n i = Ok k -> (k < n)%nat /\ (Z.of_nat k = i \/ (i < 0 /\ Z.of_nat k = i + Z.of_nat n)).
Proof.
  unfold py_index. destruct ((0 <=? i) && (i <? Z.of_nat n)) eqn:E.
  - apply andb_prop in E as [A B]. apply Z.leb_le in A. apply Z.ltb_lt in B.
    intros H. injection H as <-. lia.
  - destruct ((- Z.of_nat n <=? i) && (i <? 0)) eqn:E2; [|discriminate].
    apply andb_prop in E2 as [A B]. apply Z.leb_le in A. apply Z.ltb_lt in B. intros H. injection H as <-. lia.
Qed.
Lemma py_index_mod n i k : py_index n i = Ok k -> k = Z.to_nat (i mod Z.of_nat n) /\ (k < n)%nat.
Proof.
  intros H. apply py_index_ok in H as [H [E|[N E]]]; (split; [|assumption]).
  - rewrite Z.mod_small by lia. lia.
  - replace i with (Z.of_nat k + (-1) * Z.of_nat n) by lia. rewrite Z.mod_add by lia.
    rewrite Z.mod_small by lia. lia.
Qed.
Lemma py_index_in n i : 0 <= i < Z.of_nat n -> py_index n i = Ok (Z.to_nat i).
Proof.
  intros H. unfold py_index. replace ((0 <=? i) && (i <? Z.of_nat n)) with true; [reflexivity|].
  symmetry. apply andb_true_intro. split; [apply Z.leb_le|apply Z.ltb_lt]; lia.
Qed.

(** ** Vectors *)
Lemma length_upd {A} (l : list A) i f : length (upd l i f) = length l.
Proof. revert i. induction l as [|x l IH]; intros [|i]; cbn; auto. Qed.
Lemma nth_upd {A} (l : list A) i j f d :
  nth j (upd l i f) d = if Nat.eqb i j && Nat.ltb i (length l) then f (nth i l d) else nth j l d.
Proof.
  revert i j. induction l as [|x l IH]; intros [|i] [|j]; cbn [upd nth length]; try reflexivity.
  - cbn [Nat.ltb Nat.leb]. now rewrite andb_false_r.
  - rewrite IH. destruct (Nat.eqb_spec i j) as [->|N]; [now rewrite Nat.eqb_refl|].
    destruct (Nat.eqb_spec (S i) (S j)); [lia|reflexivity].
Qed.
Lemma nth_upd_in {A} (l : list A) i j f d : (i < length l)%nat ->
  nth j (upd l i f) d = if Nat.eqb i j then f (nth i l d) else nth j l d.
Proof. intros H. rewrite nth_upd. apply Nat.ltb_lt in H. now rewrite H, andb_true_r. Qed.
Lemma upd_out {A} (l : list A) i f : (length l <= i)%nat -> upd l i f = l.
Proof. revert i. induction l as [|x l IH]; intros [|i]; cbn; intros; try reflexivity; try lia. f_equal. apply IH. lia. Qed.
Lemma Forall_upd {A} (P : A -> Prop) l i f : Forall P l -> (forall x, P x -> P (f x)) -> Forall P (upd l i f).
Proof. intros H Hf. revert i. induction H; intros [|i]; cbn; constructor; auto. Qed.
Lemma upd_ext {A} (l : list A) i f g : (forall x, f x = g x) -> upd l i f = upd l i g.
Proof. intros H. revert i. induction l; intros [|i]; cbn; f_equal; auto. Qed.
Lemma upd_id {A} (l : list A) i f : (forall x, f x = x) -> upd l i f = l.
Proof. intros H. revert i. induction l; intros [|i]; cbn; f_equal; auto. Qed.
Lemma map_upd {A B} (g : A -> B) l i f h : (forall x, g (f x) = h (g x)) -> map g (upd l i f) = upd (map g l) i h.
Proof. intros H. revert i. induction l; intros [|i]; cbn; f_equal; auto. Qed.

Lemma length_vadd v i d : length (vadd v i d) = length v.
Proof. apply length_upd. Qed.
Lemma length_vset v i d : length (vset v i d) = length v.
Proof. apply length_upd. Qed.
Lemma length_vadds v is_ d : length (vadds v is_ d) = length v.
Proof. unfold vadds. revert v. induction is_; intros v; cbn; [reflexivity|]. rewrite IHis_. apply length_vadd. Qed.
Lemma length_vsets v is_ d : length (vsets v is_ d) = length v.
Proof. unfold vsets. revert v. induction is_; intros v; cbn; [reflexivity|]. rewrite IHis_. apply length_vset. Qed.

Lemma vget_vadd v i d k : (k < length v)%nat -> vget (vadd v i d) k = vget v k + (if Nat.eqb i k then d else 0).
Proof.
  intros H. unfold vget, vadd. rewrite nth_upd. destruct (Nat.eqb_spec i k) as [->|N]; cbn [andb]; [|lia].
  apply Nat.ltb_lt in H. now rewrite H.
Qed.
Lemma vget_vset v i x k : (k < length v)%nat -> vget (vset v i x) k = if Nat.eqb i k then x else vget v k.
Proof.
  intros H. unfold vget, vset. rewrite nth_upd. destruct (Nat.eqb_spec i k) as [->|N]; cbn [andb]; [|reflexivity].
  apply Nat.ltb_lt in H. now rewrite H.
Qed.
Lemma vget_vadds v is_ d k : (k < length v)%nat ->
  vget (vadds v is_ d) k = vget v k + d * Z.of_nat (count_occ Nat.eq_dec is_ k).
Proof.
  unfold vadds. revert v. induction is_ as [|i r IH]; intros v H; cbn [fold_left count_occ]; [lia|].
  rewrite IH by (now rewrite length_vadd). rewrite vget_vadd by assumption.
  destruct (Nat.eq_dec i k) as [->|N].
  - rewrite Nat.eqb_refl. lia.
  - apply Nat.eqb_neq in N. rewrite N. lia.
Qed.
Lemma vget_vsets v is_ x k : (k < length v)%nat ->
  vget (vsets v is_ x) k = if existsb (Nat.eqb k) is_ then x else vget v k.
Proof.
  unfold vsets. revert v. induction is_ as [|i r IH]; intros v H; cbn [fold_left existsb]; [reflexivity|].
  rewrite IH by (now rewrite length_vset). rewrite vget_vset by assumption. rewrite (Nat.eqb_sym k i).
  destruct (Nat.eqb i k), (existsb (Nat.eqb k) r); reflexivity.
Qed.
Lemma vadd_cancel v i d : vadd (vadd v i d) i (- d) = v.
Proof. unfold vadd. revert i. induction v as [|x v IH]; intros [|i]; cbn; f_equal; auto. lia. Qed.

Lemma vsum_app a b : vsum (a ++ b) = vsum a + vsum b.
Proof. unfold vsum. induction a; cbn; lia. Qed.
Lemma vsum_vadd v i d : (i < length v)%nat -> vsum (vadd v i d) = vsum v + d.
Proof. unfold vsum, vadd. revert i. induction v as [|x v IH]; intros [|i]; cbn; intros; try lia. rewrite IH; lia. Qed.
Lemma vsum_vset v i x : (i < length v)%nat -> vsum (vset v i x) = vsum v + x - vget v i.
Proof. unfold vsum, vset, vget. revert i. induction v as [|y v IH]; intros [|i]; cbn; intros; try lia. rewrite IH; lia. Qed.
Lemma vsum_nonneg v : Forall (fun x => 0 <= x) v -> 0 <= vsum v.
Proof. unfold vsum. induction 1; cbn; lia. Qed.
Lemma vsum_map_add {A} (f g : A -> Z) l : vsum (map (fun x => f x + g x) l) = vsum (map f l) + vsum (map g l).
Proof. unfold vsum. induction l; cbn; lia. Qed.
Lemma vsum_map_scale {A} (f : A -> Z) c l : vsum (map (fun x => c * f x) l) = c * vsum (map f l).
Proof. unfold vsum. induction l; cbn; lia. Qed.
Lemma vsum_ext {A} (f g : A -> Z) l : (forall x, In x l -> f x = g x) -> vsum (map f l) = vsum (map g l).
Proof. intros H. unfold vsum. induction l as [|a l IH]; cbn; [reflexivity|]. rewrite H by (now left). rewrite IH; [reflexivity|]. intros; apply H; now right. Qed.
(** A vector's sum as a sum over indices. *)
Lemma vsum_index v : vsum v = vsum (map (vget v) (seq 0 (length v))).
Proof.
  induction v as [|x v IH]; [reflexivity|]. cbn [length seq map]. cbn [vsum fold_right]. unfold vsum in *.
  cbn [fold_right]. rewrite IH. f_equal. rewrite <- seq_shift, map_map. reflexivity.
Qed.
Lemma vget_firstn n v k : (k < n)%nat -> vget (firstn n v) k = vget v k.
Proof.
  unfold vget. revert n k. induction v as [|x v IH]; intros [|n] [|k] H; cbn; try lia; try reflexivity.
  apply IH. lia.
Qed.
Lemma list_eq_vget a b : length a = length b -> (forall k, (k < length a)%nat -> vget a k = vget b k) -> a = b.
Proof.
  revert b. induction a as [|x a IH]; intros [|y b] L H; cbn in L; try lia; [reflexivity|].
  f_equal; [exact (H 0%nat ltac:(cbn; lia))|]. apply IH; [lia|]. intros k Hk. exact (H (S k) ltac:(cbn; lia)).
Qed.

(** Rows *)
Lemma row_upd {A} (m : list (list A)) p q f : (p < length m)%nat ->
  row (upd m p f) q = if Nat.eqb p q then f (row m p) else row m q.
Proof. unfold row. apply nth_upd_in. Qed.
Lemma row_map (m : list (list Z)) q (f : list Z -> list Z) : f [] = [] \/ (q < length m)%nat -> row (map f m) q = f (row m q).
Proof.
  unfold row. intros [H|H].
  - rewrite <- H at 1. apply map_nth.
  - rewrite nth_indep with (d' := f []) by (now rewrite map_length). apply map_nth.
Qed.
Lemma row_length {A} (m : list (list A)) q n : Forall (fun r => length r = n) m -> (q < length m)%nat -> length (row m q) = n.
Proof. intros H L. rewrite Forall_forall in H. apply H. unfold row. now apply nth_In. Qed.
Lemma nth_combine_seq {A} (m : list A) q d : (q < length m)%nat ->
  forall s, nth q (combine (seq s (length m)) m) (0%nat, d) = ((s + q)%nat, nth q m d).
Proof.
  revert q. induction m as [|x m IH]; intros q H s; cbn [length] in *; [lia|]. cbn [seq combine].
  destruct q as [|q]; cbn [nth]; [f_equal; lia|]. rewrite IH by lia. f_equal. lia.
Qed.
