(** The probe of NetworkProbe.v tells players apart. *)
From Coq Require Import ZArith List Bool Reals Lia Lra PeanoNat.
From Verif Require Import Base Constants Naki Tokens SpecTokens SpecEncoder TokensLemmas RoundLemmas VecLemmas Tensor Encoder EncoderLemmas EncoderSum EncoderSumLemmas Network NetworkLemmas SpecNetwork NetworkForward NetworkProbe.
Import ListNotations.
Open Scope R_scope.

Definition total (w : weights) (d : nat) (rows : list (list (table * Z))) : R := fold_right (fun l x => row_sum w l d + x) 0 rows.
Lemma total_app w d a b : total w d (a ++ b) = total w d a + total w d b.
Proof. unfold total. induction a as [|x a IH]; cbn [app fold_right]; [lra|]. rewrite IH. lra. Qed.
Lemma sum_nth w d rows : sum_n (List.length rows) (fun t => row_sum w (nth t rows []) d) = total w d rows.
Proof.
  induction rows as [|x l IH] using rev_ind; [reflexivity|]. rewrite app_length, Nat.add_comm. cbn [List.length Nat.add]. rewrite sum_n_S, total_app.
  rewrite app_nth2, Nat.sub_diag by lia. cbn [nth total fold_right]. rewrite <- IH, Rplus_0_r. f_equal.
  apply sum_n_ext. intros k K. now rewrite app_nth1 by exact K.
Qed.

(** What the player rows of the events add to column [d]. *)
Definition seats (d : nat) (p : Z) (evs : list pub_event) : R :=
  fold_right (fun e x => match actor e with Some v => player_row ((v - p) mod 4) d | None => 0 end + x) 0 evs.

Definition encode_from (p : Z) (i : nat) (toks : list Z) := mapM (fun z => encode_token ORDERED p (fst z) (snd z)) (combine (seq i (List.length toks)) toks).

Lemma totals w d p q : forall evs toks i rows1 rows2, Forall legal_event evs -> mapM token evs = Ok toks -> (i + List.length evs <= 150)%nat ->
  encode_from p i toks = Ok rows1 -> encode_from q i toks = Ok rows2 -> total w d rows1 - seats d p evs = total w d rows2 - seats d q evs.
Proof.
  unfold encode_from. induction evs as [|e l IH]; intros toks i rows1 rows2 Lg T Hi E1 E2.
  - cbn [mapM] in T. apply Ok_inj in T. subst toks. cbn in E1, E2. apply Ok_inj in E1, E2. subst. reflexivity.
  - inversion Lg as [|? ? Le Lg']; subst. cbn [mapM] in T. apply bind_ok in T as (t & Et & T). apply bind_ok in T as (ts & Ets & T). apply Ok_inj in T. subst toks.
    cbn [List.length seq combine mapM fst snd] in *.
    apply bind_ok in E1 as (a1 & A1 & E1). apply bind_ok in E1 as (b1 & B1 & E1). apply Ok_inj in E1. subst rows1.
    apply bind_ok in E2 as (a2 & A2 & E2). apply bind_ok in E2 as (b2 & B2 & E2). apply Ok_inj in E2. subst rows2.
    assert (Hi' : (i < 150)%nat) by lia. rewrite (ordered_rows p i e t Hi' Le Et) in A1. rewrite (ordered_rows q i e t Hi' Le Et) in A2. apply Ok_inj in A1, A2.
    assert (Hs : (S i + List.length l <= 150)%nat) by lia. specialize (IH ts (S i) b1 b2 Lg' Ets Hs B1 B2).
    assert (Hd : row_sum w a1 d - match actor e with Some v => player_row ((v - p) mod 4) d | None => 0 end = row_sum w a2 d - match actor e with Some v => player_row ((v - q) mod 4) d | None => 0 end).
    { subst a1 a2. destruct e; cbn [actor]; rewrite ?row_sum_app, ?row_sum_cons; cbn [row_of fst snd]; lra. }
    cbn [total seats fold_right]. fold (total w d b1) (total w d b2) (seats d p l) (seats d q l). lra.
Qed.

Lemma pads w d p : forall n i rows, (i + n <= 150)%nat -> encode_from p i (repeat PAD_ID n) = Ok rows -> total w d rows = 0.
Proof.
  unfold encode_from. induction n as [|n IH]; intros i rows Hi E; [cbn in E; apply Ok_inj in E; subst; reflexivity|].
  cbn [repeat List.length seq combine mapM fst snd] in E. apply bind_ok in E as (a & A & E). apply bind_ok in E as (b & B & E). apply Ok_inj in E. subst rows.
  assert (Hi' : (i < 150)%nat) by lia. destruct (encode_token_total ORDERED p i PAD_ID Hi') as [[_ Q]|[Q _]]; [|cbn in Q; lia]. rewrite Q in A. apply Ok_inj in A. subst a.
  cbn [total fold_right]. fold (total w d b). rewrite (IH (S i) b) by (assumption || lia). cbn. lra.
Qed.

Lemma seats_deeds p evs : (0 <= p < 4)%Z -> Forall legal_event evs ->
  seats 0 p evs = IZR (deeds evs ((p + 1) mod 4) - deeds evs ((p + 3) mod 4)) /\ seats 1 p evs = IZR (deeds evs p - deeds evs ((p + 2) mod 4)).
Proof.
  intros Hp. induction 1 as [|e l Le _ [I0 I1]]; [split; cbn; lra|].
  assert (D : forall j, deeds (e :: l) j = ((match actor e with Some v => if Z.eqb v j then 1 else 0 | None => 0 end) + deeds l j)%Z).
  { intros j. unfold deeds. cbn [filter]. destruct (actor e) as [v|]; [|lia]. destruct (Z.eqb v j); cbn [List.length]; lia. }
  cbn [seats fold_right]. fold (seats 0 p l) (seats 1 p l). rewrite I0, I1, !D.
  destruct (actor e) as [v|] eqn:Ea; [|rewrite <- !plus_IZR; split; f_equal; lia].
  assert (Hv : (0 <= v < 4)%Z) by (destruct e; cbn [actor legal_event] in *; try discriminate Ea; injection Ea as ->; tauto).
  destruct (quarter ((v - p) mod 4) (Z.mod_pos_bound (v - p) 4 eq_refl)) as [Q0 Q1]. rewrite Q0, Q1, <- !plus_IZR.
  assert (Cv : v = 0%Z \/ v = 1%Z \/ v = 2%Z \/ v = 3%Z) by lia. assert (Cp : p = 0%Z \/ p = 1%Z \/ p = 2%Z \/ p = 3%Z) by lia.
  clear - Cv Cp. split; f_equal; destruct Cp as [-> |[-> |[-> | ->]]]; destruct Cv as [-> |[-> |[-> | ->]]]; 
    repeat match goal with |- context[(?a mod 4)%Z] => let r := eval vm_compute in (a mod 4)%Z in change (a mod 4)%Z with r end;
    repeat match goal with |- context[nth (Z.to_nat ?m) ?l ?z] => let r := eval vm_compute in (nth (Z.to_nat m) l z) in change (nth (Z.to_nat m) l z) with r end;
    repeat match goal with |- context[Z.eqb ?a ?b] => let r := eval vm_compute in (Z.eqb a b) in change (Z.eqb a b) with r end; cbv iota; lia.
Qed.

Lemma seats_apart p q evs : (0 <= p < 4)%Z -> (0 <= q < 4)%Z -> p <> q -> Forall legal_event evs ->
  (deeds evs 0 <> deeds evs 2 \/ deeds evs 1 <> deeds evs 3) -> exists d, (d < 2)%nat /\ seats d p evs <> seats d q evs.
Proof.
  intros Hp Hq N Lg U. destruct (seats_deeds p evs Hp Lg) as [A0 A1]. destruct (seats_deeds q evs Hq Lg) as [B0 B1].
  destruct (Req_dec (seats 0 p evs) (seats 0 q evs)) as [E0|E0]; [|exists 0%nat; split; [lia|exact E0]].
  destruct (Req_dec (seats 1 p evs) (seats 1 q evs)) as [E1|E1]; [|exists 1%nat; split; [lia|exact E1]].
  exfalso. rewrite A0, B0 in E0. rewrite A1, B1 in E1. apply eq_IZR in E0, E1. clear A0 A1 B0 B1.
  assert (Cp : p = 0%Z \/ p = 1%Z \/ p = 2%Z \/ p = 3%Z) by lia. assert (Cq : q = 0%Z \/ q = 1%Z \/ q = 2%Z \/ q = 3%Z) by lia.
  destruct Cp as [-> |[-> |[-> | ->]]]; destruct Cq as [-> |[-> |[-> | ->]]]; cbn in E0, E1; lia.
Qed.

Lemma encode_row_split p toks n rows : encode_row ORDERED p (toks ++ repeat PAD_ID n) = Ok rows -> exists r1 r2, rows = r1 ++ r2 /\
  encode_from p 0 toks = Ok r1 /\ encode_from p (List.length toks) (repeat PAD_ID n) = Ok r2.
Proof.
  assert (A : forall l1 l2 i rows, encode_from p i (l1 ++ l2) = Ok rows -> exists r1 r2, rows = r1 ++ r2 /\ encode_from p i l1 = Ok r1 /\ encode_from p (i + List.length l1) l2 = Ok r2).
  { unfold encode_from. induction l1 as [|x l1 IH]; intros l2 i rs H.
    - exists [], rs. cbn [List.length seq combine mapM]. rewrite Nat.add_0_r. auto.
    - cbn [app List.length seq combine mapM fst snd] in *. apply bind_ok in H as (a & Ea & H). apply bind_ok in H as (b & Eb & H). apply Ok_inj in H. subst rs.
      destruct (IH _ _ _ Eb) as (r1 & r2 & -> & E1 & E2). exists (a :: r1), r2. rewrite Ea, E1. cbn [bind app]. replace (i + S (List.length l1))%nat with (S i + List.length l1)%nat by lia. auto. }
  intros H. apply (A toks (repeat PAD_ID n) 0%nat rows). exact H.
Qed.

Lemma mapM_len {A B} (f : A -> res B) l r : mapM f l = Ok r -> List.length l = List.length r.
Proof.
  revert r. induction l as [|a l IH]; cbn [mapM]; intros r H; [apply Ok_inj in H; now subst|]. apply bind_ok in H as (y & _ & H). apply bind_ok in H as (ys & E & H).
  apply Ok_inj in H. subst. cbn. now rewrite (IH ys).
Qed.
Lemma encode_row_length a p toks rows : encode_row a p toks = Ok rows -> List.length rows = List.length toks.
Proof. intros H. apply mapM_len in H. rewrite <- H. unfold enumerate. rewrite combine_length, seq_length. lia. Qed.

Lemma columns_apart w d h evs toks r1 r2 : Forall legal_event evs -> mapM token evs = Ok toks -> (List.length evs <= 150)%nat ->
  r_tokens r1 = toks ++ repeat PAD_ID (150 - List.length toks) -> r_tokens r2 = toks ++ repeat PAD_ID (150 - List.length toks) ->
  fits ORDERED h r1 -> fits ORDERED h r2 ->
  column_sum w d r1 - column_sum w d r2 = seats d (r_player r1) evs - seats d (r_player r2) evs.
Proof.
  intros Lg T Hl R1 R2 (L1 & T1 & _) (L2 & T2 & _). unfold column_sum.
  destruct (encode_row_total ORDERED (r_player r1) (r_tokens r1)) as (rows1 & E1); [lia|exact T1|].
  destruct (encode_row_total ORDERED (r_player r2) (r_tokens r2)) as (rows2 & E2); [lia|exact T2|]. rewrite E1, E2.
  pose proof (encode_row_length _ _ _ _ E1) as N1. pose proof (encode_row_length _ _ _ _ E2) as N2. rewrite L1 in N1. rewrite L2 in N2.
  pose proof (sum_nth w d rows1) as S1. pose proof (sum_nth w d rows2) as S2. rewrite N1 in S1. rewrite N2 in S2. rewrite S1, S2.
  rewrite R1 in E1. rewrite R2 in E2. apply encode_row_split in E1 as (a1 & b1 & -> & A1 & B1). apply encode_row_split in E2 as (a2 & b2 & -> & A2 & B2).
  rewrite !total_app. assert (Nt : List.length toks = List.length evs) by (symmetry; exact (mapM_len _ _ _ T)).
  assert (Hp : (List.length toks + (150 - List.length toks) <= 150)%nat) by lia.
  rewrite (pads w d _ _ _ b1 Hp B1), (pads w d _ _ _ b2 Hp B2).
  pose proof (totals w d _ _ evs toks 0 a1 a2 Lg T Hl A1 A2). lra.
Qed.
