(** Invariants of the event loop. *)
From Coq Require Import ZArith List Bool String Ascii Lia PeanoNat Permutation.
From Verif Require Import Base Constants Naki Decision Tokens GameInfo Agari Process VecLemmas
  SpecMeld SpecTokens SpecRound RoundLemmas.
Import ListNotations.
Open Scope Z_scope.

Lemma strip_fields s t : strip s = strip t ->
  s_hands s = s_hands t /\ s_ht s = s_ht t /\ s_htf s = s_htf t /\ s_rem s = s_rem t /\ s_pov s = s_pov t /\
  s_sute s = s_sute t /\ s_rtsumo s = s_rtsumo t /\ s_doras s = s_doras t /\ s_scores s = s_scores t /\
  s_kyotaku s = s_kyotaku t /\ s_reaches s = s_reaches t /\ s_dreaches s = s_dreaches t /\ s_ippatsu s = s_ippatsu t /\
  s_menzen s = s_menzen t /\ s_melds s = s_melds t /\ s_cycles s = s_cycles t /\ s_acquired s = s_acquired t.
Proof. destruct s, t. unfold strip. ss. intros H. injection H as -> -> -> -> -> -> -> -> -> -> -> -> -> -> -> -> ->. repeat split. Qed.

Lemma strip_add_token t s : strip (add_token t s) = strip s.
Proof. reflexivity. Qed.
Lemma strip_add_half t s : strip (add_half t s) = strip s.
Proof. reflexivity. Qed.
Lemma strip_set_half t s : strip (set_half t s) = strip s.
Proof. reflexivity. Qed.
Lemma strip_set_cur t s : strip (set_cur t s) = strip s.
Proof. reflexivity. Qed.
Lemma strip_set_sobj t s : strip (set_sobj t s) = strip s.
Proof. reflexivity. Qed.
Global Opaque strip.
Ltac sstrip := repeat first [rewrite strip_add_token | rewrite strip_add_half | rewrite strip_set_half | rewrite strip_set_cur | rewrite strip_set_sobj].

Lemma astep_apply L n s a s' : wf s -> seated a -> astep L n s a = Ok s' -> guard a s /\ strip s' = strip (apply a s).
Proof.
  intros W S H. destruct a as [w t|w t|w c|w|w|t]; cbn [astep seated] in *.
  - assert (Ew : w = Z.of_nat (Z.to_nat w)) by lia.
    apply draw_inv in H as (G & ag & re & ank & kak & _ & _ & _ & _ & ->); [|lia|exact W].
    rewrite <- Ew in *. split; [exact G|]. sstrip. reflexivity.
  - assert (Ew : w = Z.of_nat (Z.to_nat w)) by lia.
    apply discard_inv in H as (G & so & acq & tok & rons & nakis & _ & _ & _ & _ & _ & _ & ->); [|lia|exact W].
    rewrite <- Ew in *. split; [exact G|]. sstrip. reflexivity.
  - apply bind_ok in H as (u & _ & H). apply bind_ok in H as (nk & En & H).
    apply (call_inv _ _ _ _ _ _ _ W En) in H as (G & tok & _ & hs & -> & _). split; [exact G|]. sstrip. reflexivity.
  - apply bind_ok in H as (u & _ & H). apply reach1_inv in H as (G & ->); [|exact W]. split; [exact G|]. sstrip. reflexivity.
  - apply bind_ok in H as (u & _ & H). apply reach2_inv in H as (G & tok & _ & ->); [|exact W]. split; [exact G|]. sstrip. reflexivity.
  - apply dora_inv in H as (G & tok & _ & ->). split; [exact G|]. sstrip. reflexivity.
Qed.

Lemma wf_strip s t : strip s = strip t -> wf s -> wf t.
Proof.
  intros H. apply strip_fields in H as (E1 & E2 & E3 & E4 & E5 & E6 & E7 & E8 & E9 & E10 & E11 & E12 & E13 & E14 & E15 & E16 & E17).
  unfold wf. rewrite E1, E2, E3, E4, E5, E6, E11, E12, E13, E14, E15. exact (fun x => x).
Qed.

Lemma length_map_others m p f : List.length (map_others m p f) = List.length m.
Proof. unfold map_others. rewrite map_length, combine_length, seq_length. lia. Qed.
Lemma row_map_others m p q f : (q < List.length m)%nat -> row (map_others m p f) q = if Nat.eqb q p then row m q else f (row m q).
Proof.
  intros H. unfold row, map_others.
  rewrite nth_indep with (d' := (fun ir => if Nat.eqb (fst ir) p then snd ir else f (snd ir)) (0%nat, [])).
  2:{ rewrite map_length, combine_length, seq_length. lia. }
  rewrite (map_nth (fun ir => if Nat.eqb (fst ir) p then snd ir else f (snd ir))). rewrite nth_combine_seq by exact H. reflexivity.
Qed.
Lemma Forall_map_others (P : list Z -> Prop) m p f : Forall P m -> (forall x, P x -> P (f x)) -> Forall P (map_others m p f).
Proof.
  intros H Hf. unfold map_others. apply Forall_forall. intros x Hx. apply in_map_iff in Hx as ([i r] & <- & Hi).
  apply in_combine_r in Hi. rewrite Forall_forall in H. cbn. destruct (Nat.eqb i p); auto.
Qed.
Lemma Forall_map_rows (P : list Z -> Prop) m f : Forall P m -> (forall x, P x -> P (f x)) -> Forall P (map_rows m f).
Proof. intros H Hf. unfold map_rows. apply Forall_map. eapply Forall_impl; [|exact H]. auto. Qed.

Ltac wfside :=
  unfold upd_row, map_rows; rewrite ?length_upd, ?map_length, ?length_map_others, ?length_vset, ?length_vadd, ?length_vadds, ?repeat_length; try assumption.
Ltac wfrow :=
  repeat first [ apply Forall_upd | apply Forall_map_others | apply Forall_map_rows
               | match goal with |- Forall _ (map_rows _ _) => apply Forall_map_rows end ];
  try assumption; intros ? ?; rewrite ?length_vset, ?length_vadd, ?length_vadds, ?length_vsets; assumption.

Lemma wf_apply a s : wf s -> wf (apply a s).
Proof.
  intros (A1 & A2 & A3 & A4 & A5 & A6 & A7 & A8 & A9 & A10 & A11 & A12 & A13 & A14 & A15 & A16).
  destruct s as [hands ht htf rem pov sute rts doras sc ky re dr ip mz md cur cy acq so hf tk]. cbn in *.
  unfold wf.
  destruct a as [w t|w t|w c|w|w|t]; ss.
  - repeat match goal with |- _ /\ _ => split end; try (wfside; fail); try (unfold upd_row; wfrow; fail).
    destruct (any_set _); [reflexivity|]. destruct (truthy _); wfside.
  - repeat match goal with |- _ /\ _ => split end; try (wfside; fail); try (unfold upd_row; wfrow; fail).
  - repeat match goal with |- _ /\ _ => split end; try (wfside; fail); try (unfold upd_row; wfrow; fail).
    + destruct (hd_error _); wfside.
    + destruct (hd_error _); [|assumption]. unfold upd_row; wfrow.
    + destruct (any_set ip); [reflexivity|assumption].
    + destruct (negb _); wfside.
    + destruct (is_kakan c); rewrite ?length_upd; assumption.
  - repeat match goal with |- _ /\ _ => split end; try (wfside; fail); try (unfold upd_row; wfrow; fail).
  - repeat match goal with |- _ /\ _ => split end; try (wfside; fail); try (unfold upd_row; wfrow; fail).
    destruct (_ && _); wfside.
  - repeat match goal with |- _ /\ _ => split end; try (wfside; fail); try (unfold upd_row; wfrow; fail).
Qed.

Lemma astep_wf L n s a s' : wf s -> seated a -> astep L n s a = Ok s' -> wf s'.
Proof. intros W S H. apply astep_apply in H as [_ H]; auto. eapply wf_strip; [symmetry; exact H|]. now apply wf_apply. Qed.

(** The variables after a play, one by one. *)
Lemma ap_hands a s : s_hands (apply a s) = match a with
  | PlDraw w t => upd (s_hands s) (Z.to_nat w) (fun v => vset v (tnat t) 1)
  | PlDiscard w t => upd (s_hands s) (Z.to_nat w) (fun v => vset v (tnat t) 0)
  | PlCall w c => upd (s_hands s) (Z.to_nat w) (fun v => vadds v (map tnat (shown_by c)) (-1))
  | _ => s_hands s end.
Proof. destruct s, a; reflexivity. Qed.
Lemma ap_ht a s : s_ht (apply a s) = match a with
  | PlDraw w t => upd (s_ht s) (Z.to_nat w) (fun v => vadds v (tix t) 1)
  | PlDiscard w t => upd (s_ht s) (Z.to_nat w) (fun v => vadds v (tix t) (-1))
  | PlCall w c => upd (s_ht s) (Z.to_nat w) (fun v => vadds v (List.concat (map tix (shown_by c))) (-1))
  | _ => s_ht s end.
Proof. destruct s, a; reflexivity. Qed.
Lemma ap_htf a s : s_htf (apply a s) = match a with
  | PlDraw w t => upd (s_htf s) (Z.to_nat w) (fun v => vadds v (tix t) 1)
  | PlDiscard w t => upd (s_htf s) (Z.to_nat w) (fun v => vadds v (tix t) (-1))
  | PlCall w c => match hd_error (claimed_by c) with None => s_htf s
       | Some a => upd (s_htf s) (Z.to_nat w) (fun v => vadds v (tix a) 1) end
  | _ => s_htf s end.
Proof. destruct s, a; reflexivity. Qed.
Lemma ap_rem a s : s_rem (apply a s) = match a with
  | PlDraw w t => vadds (s_rem s) (tix t) (-1)
  | PlDora t => vadd (s_rem s) (hd 0%nat (tix t)) (-1)
  | _ => s_rem s end.
Proof. destruct s, a; reflexivity. Qed.
Lemma ap_pov a s : s_pov (apply a s) = match a with
  | PlDraw w t => upd (s_pov s) (Z.to_nat w) (fun v => vadds v (tix t) (-1))
  | PlDiscard w t => upd (map (fun v => vadds v (tix t) (-1)) (s_pov s)) (Z.to_nat w) (fun v => vadds v (tix t) 1)
  | PlCall w c => map_others (s_pov s) (Z.to_nat w) (fun v => vadds v (List.concat (map tix (shown_by c))) (-1))
  | PlDora t => map (fun v => vadd v (hd 0%nat (tix t)) (-1)) (s_pov s)
  | _ => s_pov s end.
Proof. destruct s, a; reflexivity. Qed.
Lemma ap_sute a s : s_sute (apply a s) = match a with
  | PlDiscard w t => upd (s_sute s) (Z.to_nat w) (fun v => vsets v (tix t) 1)
  | _ => s_sute s end.
Proof. destruct s, a; reflexivity. Qed.
Lemma ap_rtsumo a s : s_rtsumo (apply a s) = match a with
  | PlDraw _ _ | PlDora _ => s_rtsumo s - 1
  | PlCall _ c => s_rtsumo s - (if negb (is_chi c) && negb (is_pon c) then 1 else 0)
  | _ => s_rtsumo s end.
Proof. destruct s, a; reflexivity. Qed.
Lemma ap_doras a s : s_doras (apply a s) = match a with PlDora t => s_doras s ++ [t] | _ => s_doras s end.
Proof. destruct s, a; reflexivity. Qed.
Lemma ap_scores a s : s_scores (apply a s) = match a with PlReach2 w => vadd (s_scores s) (Z.to_nat w) (-10) | _ => s_scores s end.
Proof. destruct s, a; reflexivity. Qed.
Lemma ap_kyotaku a s : s_kyotaku (apply a s) = match a with PlReach2 w => s_kyotaku s + 1 | _ => s_kyotaku s end.
Proof. destruct s, a; reflexivity. Qed.
Lemma ap_reaches a s : s_reaches (apply a s) = match a with PlReach2 w => vset (s_reaches s) (Z.to_nat w) 1 | _ => s_reaches s end.
Proof. destruct s, a; reflexivity. Qed.
Lemma ap_dreaches a s : s_dreaches (apply a s) = match a with
  | PlReach2 w => if (s_cycles s <=? 4) && all_set (s_menzen s) then vset (s_dreaches s) (Z.to_nat w) 1 else s_dreaches s
  | _ => s_dreaches s end.
Proof. destruct s, a; reflexivity. Qed.
Lemma ap_menzen a s : s_menzen (apply a s) = match a with
  | PlCall w c => if negb (from_who c =? 0) then vset (s_menzen s) (Z.to_nat w) 0 else s_menzen s
  | _ => s_menzen s end.
Proof. destruct s, a; reflexivity. Qed.
Lemma ap_ippatsu a s : s_ippatsu (apply a s) = match a with
  | PlDraw w t => let ip := if truthy (vget (s_ippatsu s) (Z.to_nat w)) then vset (s_ippatsu s) (Z.to_nat w) 0 else s_ippatsu s in
                  if any_set ip then repeat 0 4 else ip
  | PlCall _ _ => if any_set (s_ippatsu s) then repeat 0 4 else s_ippatsu s
  | PlReach1 w => vset (s_ippatsu s) (Z.to_nat (w mod 4)) 1
  | PlReach2 w => vset (s_ippatsu s) (Z.to_nat w) 1
  | _ => s_ippatsu s end.
Proof. destruct s, a; reflexivity. Qed.
Lemma ap_cycles a s : s_cycles (apply a s) = match a with
  | PlDraw _ _ => s_cycles s + 1
  | PlCall w c => s_cycles s + (w - from_who c) mod 4 + b2z (is_minkan c || is_ankan c || is_kakan c)
  | _ => s_cycles s end.
Proof. destruct s, a; reflexivity. Qed.
Lemma ap_acquired a s : s_acquired (apply a s) = match a with
  | PlDraw _ t => Some t
  | PlDiscard _ _ => None
  | PlCall w c => if is_minkan c || is_ankan c || is_kakan c then None else hd_error (claimed_by c)
  | _ => s_acquired s end.
Proof. destruct s, a; reflexivity. Qed.
Lemma ap_melds a s : s_melds (apply a s) = match a with
  | PlCall w c => let l := upd (s_melds s) (Z.to_nat w) (fun l => l ++ [match mk_naki c with Ok nk => nk | Err _ => raw_naki c end]) in
                if is_kakan c then upd l (Z.to_nat w) (drop_pon (hd 0 (shown_by c) / 4)) else l
  | _ => s_melds s end.
Proof. destruct s, a; reflexivity. Qed.
Lemma ap_frame a s : s_half (apply a s) = s_half s /\ s_tokens (apply a s) = s_tokens s /\ s_cur (apply a s) = s_cur s /\
  s_sobj (apply a s) = s_sobj s.
Proof. destruct s, a; repeat split. Qed.

(** Induction over the plays of a round, for facts about the bookkeeping variables. *)
Lemma run_inv L n s0 pls s (I : list play -> rstate -> Prop) :
  wf s0 -> Forall seated pls -> I [] s0 ->
  (forall h a s, wf s -> seated a -> I h s -> guard a s -> I (h ++ [a]) (apply a s)) ->
  (forall h s s', strip s = strip s' -> I h s -> I h s') ->
  foldM (astep L n) s0 pls = Ok s -> I pls s /\ wf s.
Proof.
  intros W0 Sp I0 Hs Ht.
  assert (G : forall pls h s1, Forall seated pls -> wf s1 -> I h s1 -> foldM (astep L n) s1 pls = Ok s -> I (h ++ pls) s /\ wf s).
  { clear pls Sp. induction pls as [|a pls IH]; cbn; intros h s1 Sp W1 I1 H.
    - injection H as <-. now rewrite app_nil_r.
    - apply bind_ok in H as (s2 & E & H). inversion Sp as [|? ? Sa Sp']; subst.
      pose proof (astep_wf _ _ _ _ _ W1 Sa E) as W2. apply astep_apply in E as [Ga Es]; auto.
      specialize (IH (h ++ [a]) s2 Sp' W2). rewrite <- app_assoc in IH. apply IH; [|exact H].
      eapply Ht; [symmetry; exact Es|]. now apply Hs. }
  intros H. exact (G pls [] s0 Sp W0 I0 H).
Qed.
(** The same when the half-turns, tokens and state objects matter. *)
Lemma run_inv_full L n s0 pls s (I : list play -> rstate -> Prop) :
  wf s0 -> Forall seated pls -> I [] s0 ->
  (forall h a s s', wf s -> seated a -> I h s -> guard a s -> astep L n s a = Ok s' -> I (h ++ [a]) s') ->
  foldM (astep L n) s0 pls = Ok s -> I pls s /\ wf s.
Proof.
  intros W0 Sp I0 Hs.
  assert (G : forall pls h s1, Forall seated pls -> wf s1 -> I h s1 -> foldM (astep L n) s1 pls = Ok s -> I (h ++ pls) s /\ wf s).
  { clear pls Sp. induction pls as [|a pls IH]; cbn; intros h s1 Sp W1 I1 H.
    - injection H as <-. now rewrite app_nil_r.
    - apply bind_ok in H as (s2 & E & H). inversion Sp as [|? ? Sa Sp']; subst.
      pose proof (astep_wf _ _ _ _ _ W1 Sa E) as W2. pose proof E as E'. apply astep_apply in E as [Ga Es]; auto.
      specialize (IH (h ++ [a]) s2 Sp' W2). rewrite <- app_assoc in IH. apply IH; [|exact H]. eauto. }
  intros H. exact (G pls [] s0 Sp W0 I0 H).
Qed.
