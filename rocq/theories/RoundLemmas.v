(** The event loop as a sequence of plays with explicit bookkeeping effects. *)
From Coq Require Import ZArith List Bool String Ascii Lia PeanoNat.
From Verif Require Import Base Constants Naki Decision Tokens GameInfo Agari Process VecLemmas
  SpecMeld SpecTokens SpecRound NakiProofs NakiLemmas NakiCore NakiLemmas2 TokensLemmas.
Import ListNotations.
Open Scope Z_scope.

(** ** From events to plays *)
Definition astep (L : libs) (n : renv) (s : rstate) (a : play) : res rstate :=
  match a with
  | PlDora t => dora_step s t
  | PlReach1 w => _ <- passert (s_cur s) ;; reach1_step s w
  | PlReach2 w => _ <- passert (s_cur s) ;; reach2_step s w
  | PlCall w c => _ <- passert (s_cur s) ;; nk <- mk_naki c ;; naki_step L n s nk w
  | PlDraw w t => draw_step L n s (Z.to_nat w) t
  | PlDiscard w t => discard_step L n s (Z.to_nat w) t
  end.

(** Players of draws and discards come from the tag. *)
Definition seated (a : play) : Prop :=
  match a with PlDraw w _ | PlDiscard w _ => 0 <= w < 4 | _ => True end.

Lemma draw_seat_range c p : draw_seat c = Some p -> (p < 4)%nat.
Proof. unfold draw_seat. repeat destruct (Ascii.eqb _ _); intros H; try discriminate H; injection H as <-; lia. Qed.
Lemma discard_seat_range c p : discard_seat c = Some p -> (p < 4)%nat.
Proof. unfold discard_seat. repeat destruct (Ascii.eqb _ _); intros H; try discriminate H; injection H as <-; lia. Qed.

Lemma step_play L n s ev s' : step L n s ev = Ok s' ->
  exists a, play_of ev = Some a /\ seated a /\ astep L n s a = Ok s'.
Proof.
  unfold step, play_of, attr_int. intros H.
  destruct (String.eqb (e_tag ev) "DORA").
  { binv H. rewrite E. rewrite E0. cbn. eexists. split; [reflexivity|]. split; [exact I|exact H]. }
  destruct (String.eqb (e_tag ev) "REACH").
  { binv H. rewrite E0, E1, E2.
    destruct (String.eqb x2 "1"); (eexists; split; [reflexivity|]; split; [exact I|]); cbn; rewrite E; exact H. }
  destruct (String.eqb (e_tag ev) "N").
  { binv H. rewrite E0, E1, E3, E4. eexists. split; [reflexivity|]. split; [exact I|]. cbn. rewrite E. cbn. rewrite E2. exact H. }
  destruct (e_tag ev) as [|c rest]; [discriminate|].
  destruct (draw_seat c) as [p|] eqn:Ed.
  { binv H. rewrite E0. eexists. split; [reflexivity|]. pose proof (draw_seat_range _ _ Ed). split; [cbn; lia|].
    cbn. now rewrite Nat2Z.id. }
  destruct (discard_seat c) as [p|] eqn:Ed2; [|discriminate].
  binv H. rewrite E1. eexists. split; [reflexivity|]. pose proof (discard_seat_range _ _ Ed2). split; [cbn; lia|].
  cbn. now rewrite Nat2Z.id.
Qed.

Lemma steps_plays L n evs : forall s s', foldM (step L n) s evs = Ok s' ->
  exists pls, map play_of evs = map Some pls /\ Forall seated pls /\ foldM (astep L n) s pls = Ok s'.
Proof.
  induction evs as [|ev evs IH]; cbn; intros s s' H.
  - exists []. injection H as <-. repeat split. constructor.
  - apply bind_ok in H as (s1 & E & H). apply step_play in E as (a & Ea & Sa & E).
    apply IH in H as (pls & Em & Sp & H). exists (a :: pls). cbn. rewrite Ea, Em, E. repeat split; [|exact H].
    constructor; assumption.
Qed.

(** ** The bookkeeping effect of a play *)
Definition tix (t : Z) : list nat := nth (Z.to_nat (tid t)) TILE2IDX_list [].
Definition tnat (t : Z) : nat := Z.to_nat (tid t).

Lemma tile2idx_ok t ti : tile2idx t = Ok ti -> ti = tix t.
Proof.
  unfold tile2idx, tix, tid. intros H. binv H. apply py_index_mod in E as [-> _]. injection H as <-. reflexivity.
Qed.
Lemma py_index_tid t k : py_index 136 t = Ok k -> k = tnat t.
Proof. intros H. now apply py_index_mod in H as [-> _]. Qed.
Lemma tnat_lt t : (tnat t < 136)%nat.
Proof. unfold tnat, tid. pose proof (Z.mod_pos_bound t 136). lia. Qed.

Definition expose1 (p : nat) (s : rstate) (e : Z) : rstate :=
  set_ht (upd_row (s_ht s) p (fun v => vadds v (tix e) (-1)))
     (set_hands (upd_row (s_hands s) p (fun v => vadd v (tnat e) (-1))) s).

Definition apply (a : play) (s : rstate) : rstate :=
  match a with
  | PlDora t =>
      let k := hd 0%nat (tix t) in
      set_rtsumo (s_rtsumo s - 1) (set_pov (map_rows (s_pov s) (fun v => vadd v k (-1)))
       (set_rem (vadd (s_rem s) k (-1)) (set_doras (s_doras s ++ [t]) s)))
  | PlReach1 w => set_ippatsu (vset (s_ippatsu s) (Z.to_nat (w mod 4)) 1) s
  | PlReach2 w =>
      let p := Z.to_nat w in
      set_ippatsu (vset (s_ippatsu s) p 1)
      (set_dreaches (if (s_cycles s <=? 4) && all_set (s_menzen s) then vset (s_dreaches s) p 1 else s_dreaches s)
      (set_scores (vadd (s_scores s) p (-10)) (set_kyotaku (s_kyotaku s + 1) (set_reaches (vset (s_reaches s) p 1) s))))
  | PlCall w c =>
      let p := Z.to_nat w in
      let ex := shown_by c in
      let acq := hd_error (claimed_by c) in
      let kan := is_minkan c || is_ankan c || is_kakan c in
      let nk := match mk_naki c with Ok nk => nk | Err _ => raw_naki c end in
      let s1 := set_cycles (s_cycles s + (w - from_who c) mod 4 + b2z kan) s in
      let s2 := set_rtsumo (s_rtsumo s - (if negb (is_chi c) && negb (is_pon c) then 1 else 0)) s1 in
      let s3 := set_pov (map_others (s_pov s2) p (fun v => vadds v (List.concat (map tix ex)) (-1))) s2 in
      let s4 := set_ht (upd_row (s_ht s3) p (fun v => vadds v (List.concat (map tix ex)) (-1)))
               (set_hands (upd_row (s_hands s3) p (fun v => vadds v (map tnat ex) (-1))) s3) in
      let s5 := set_htf (match acq with None => s_htf s4 | Some a => upd_row (s_htf s4) p (fun v => vadds v (tix a) 1) end) s4 in
      let s6 := set_menzen (if negb (from_who c =? 0) then vset (s_menzen s5) p 0 else s_menzen s5) s5 in
      let s7 := set_ippatsu (if any_set (s_ippatsu s6) then repeat 0 4 else s_ippatsu s6) s6 in
      let s8 := set_melds (let l := upd (s_melds s7) p (fun l => l ++ [nk]) in
                 if is_kakan c then upd l p (drop_pon (hd 0 ex / 4)) else l) s7 in
      set_acquired (if kan then None else acq) s8
  | PlDraw w t =>
      let p := Z.to_nat w in
      let ip := if truthy (vget (s_ippatsu s) p) then vset (s_ippatsu s) p 0 else s_ippatsu s in
      set_ippatsu (if any_set ip then repeat 0 4 else ip)
      (set_htf (upd_row (s_htf s) p (fun v => vadds v (tix t) 1))
      (set_ht (upd_row (s_ht s) p (fun v => vadds v (tix t) 1))
      (set_hands (upd_row (s_hands s) p (fun v => vset v (tnat t) 1))
      (set_rtsumo (s_rtsumo s - 1)
      (set_pov (upd_row (s_pov s) p (fun v => vadds v (tix t) (-1)))
      (set_rem (vadds (s_rem s) (tix t) (-1))
      (set_acquired (Some t) (set_cycles (s_cycles s + 1) s))))))))
  | PlDiscard w t =>
      let p := Z.to_nat w in
      set_acquired None
      (set_pov (upd_row (map_rows (s_pov s) (fun v => vadds v (tix t) (-1))) p (fun v => vadds v (tix t) 1))
      (set_sute (upd_row (s_sute s) p (fun v => vsets v (tix t) 1))
      (set_htf (upd_row (s_htf s) p (fun v => vadds v (tix t) (-1)))
      (set_ht (upd_row (s_ht s) p (fun v => vadds v (tix t) (-1)))
      (set_hands (upd_row (s_hands s) p (fun v => vset v (tnat t) 0)) s)))))
  end.

(** Equal but for half-turns, state object, tokens and current half-turn. *)
Definition strip (s : rstate) : rstate := set_cur false (set_sobj None (set_half [] (set_tokens [] s))).

(** The tiles of [ex] can be taken from the hand of [p] one after the other. *)
Fixpoint exposable (p : nat) (h : list Z) (ex : list Z) : Prop :=
  match ex with
  | [] => True
  | e :: r => vget h (tnat e) = 1 /\ exposable p (vadd h (tnat e) (-1)) r
  end.

(** Side conditions that a successful step has checked. *)
Definition guard (a : play) (s : rstate) : Prop :=
  match a with
  | PlDora t => -136 <= t < 136
  | PlReach1 w => cur_during s = true /\ s_acquired s <> None /\ -4 <= w < 4
  | PlReach2 w => cur_post s = true /\ 0 <= w < 4 /\ (Z.to_nat w < List.length (s_scores s))%nat
  | PlCall w c => 0 <= w < 4 /\ (exists nk, mk_naki c = Ok nk) /\ (exists e, get_exposed c = Ok e) /\
      (if is_ankan c || is_kakan c then cur_during s = true else cur_post s = true) /\
      Forall (fun x => -136 <= x < 136) (shown_by c ++ claimed_by c) /\
      exposable (Z.to_nat w) (row (s_hands s) (Z.to_nat w)) (shown_by c)
  | PlDraw w t => s_acquired s = None /\ -136 <= t < 136 /\ vget (row (s_hands s) (Z.to_nat w)) (tnat t) = 0 /\
      vsum (firstn 34 (row (s_ht (apply a s)) (Z.to_nat w))) mod 3 = 2
  | PlDiscard w t => s_acquired s <> None /\ (s_cur s = false \/ cur_during s = true) /\ -136 <= t < 136 /\
      vget (row (s_hands s) (Z.to_nat w)) (tnat t) = 1 /\ s_sobj s <> None /\
      vsum (firstn 34 (row (s_ht (apply a s)) (Z.to_nat w))) mod 3 = 1
  end.

Lemma py_index_range n i k : py_index n i = Ok k -> - Z.of_nat n <= i < Z.of_nat n.
Proof. intros H. apply py_index_ok in H as [H [E|[N E]]]; lia. Qed.
Lemma tile2idx_range t ti : tile2idx t = Ok ti -> -136 <= t < 136.
Proof. unfold tile2idx. intros H. binv H. apply py_index_range in E. exact E. Qed.

(** evaluate_ron leaves the vectors unchanged. *)
Lemma ron_for_same lib a t ck ht rn d p h nk su h' o :
  ron_for lib a t ck ht rn d p h nk su = Ok (h', o) -> h' = h.
Proof.
  unfold ron_for. destruct (truthy (vget su d)).
  - intros H. now injection H as <- _.
  - destruct (hand_tensor2strs (vadd h d 1)) as [[[? ?] ?] ?]. intros H. binv H.
    injection H as <- _. apply vadd_cancel.
Qed.
Lemma evaluate_ron_same lib a pl htf nl su t ck ht rn htf' o :
  List.length htf = 4%nat -> evaluate_ron lib a pl htf nl su t ck ht rn = Ok (htf', o) -> htf' = htf /\ List.length o = 4%nat.
Proof.
  intros L H. unfold evaluate_ron in H. binv H. apply mapM_ok in E0. injection H as <- <-.
  assert (G : map fst x0 = map (row htf) (seq 0 4)).
  { induction E0 as [|p y l r Hp _ IH]; [reflexivity|]. cbn [map]. f_equal; [|exact IH].
    destruct y as [h o]. destruct (_ =? pl).
    - now injection Hp as <- _.
    - now apply ron_for_same in Hp. }
  split.
  - rewrite G. destruct htf as [|a1 [|a2 [|a3 [|a4 [|]]]]]; try discriminate L. reflexivity.
  - rewrite map_length. apply Forall2_len in E0. rewrite <- E0. reflexivity.
Qed.

Lemma map_tix l ls : mapM tile2idx l = Ok ls -> ls = map tix l /\ Forall (fun x => -136 <= x < 136) l.
Proof.
  intros H. apply mapM_ok in H. induction H as [|x y l r Hx _ [IH1 IH2]]; [split; [reflexivity|constructor]|].
  split; [|constructor; [exact (tile2idx_range _ _ Hx)|assumption]]. cbn. f_equal; [now apply tile2idx_ok|assumption].
Qed.

Lemma upd_upd {A} (l : list A) i f g : upd (upd l i f) i g = upd l i (fun x => g (f x)).
Proof. revert i. induction l; intros [|i]; cbn; f_equal; auto. Qed.
Lemma vadds_app v a b d : vadds v (a ++ b) d = vadds (vadds v a d) b d.
Proof. unfold vadds. apply fold_left_app. Qed.

Lemma fold_expose1 p l : forall s, fold_left (expose1 p) l s =
  set_ht (upd_row (s_ht s) p (fun v => vadds v (List.concat (map tix l)) (-1)))
  (set_hands (upd_row (s_hands s) p (fun v => vadds v (map tnat l) (-1))) s).
Proof.
  induction l as [|e l IH]; intros s; cbn [fold_left].
  - unfold upd_row. rewrite !upd_id by reflexivity. now destruct s.
  - rewrite IH. unfold expose1. cbn [s_ht s_hands set_ht set_hands]. unfold upd_row. rewrite !upd_upd.
    cbn [map List.concat].
    rewrite (upd_ext (s_ht s) p (fun v => vadds v (tix e ++ List.concat (map tix l)) (-1)) (fun x => vadds (vadds x (tix e) (-1)) (List.concat (map tix l)) (-1)))
      by (intros; apply vadds_app).
    reflexivity.
Qed.

Lemma foldM_expose p l : forall s s', (p < List.length (s_hands s))%nat -> foldM (expose_tile p) s l = Ok s' ->
  s' = fold_left (expose1 p) l s /\ exposable p (row (s_hands s) p) l.
Proof.
  induction l as [|e l IH]; cbn; intros s s' Hp H; [split; [now injection H|exact I]|].
  apply bind_ok in H as (s1 & E & H).
  unfold expose_tile in E. binv E. apply py_index_tid in E0. apply tile2idx_ok in E2. apply passert_ok, Z.eqb_eq in E1. subst.
  injection E as <-. apply IH in H; [|cbn; unfold upd_row; now rewrite length_upd].
  destruct H as [-> H]. split; [reflexivity|]. split; [assumption|]. cbn [s_hands set_ht set_hands] in H.
  unfold upd_row in H. rewrite row_upd, Nat.eqb_refl in H by assumption. exact H.
Qed.

(** Shapes of the variables. *)
Definition wf (s : rstate) : Prop :=
  List.length (s_hands s) = 4%nat /\ Forall (fun r => List.length r = 136%nat) (s_hands s) /\
  List.length (s_ht s) = 4%nat /\ Forall (fun r => List.length r = 37%nat) (s_ht s) /\
  List.length (s_htf s) = 4%nat /\ Forall (fun r => List.length r = 37%nat) (s_htf s) /\
  List.length (s_rem s) = 37%nat /\
  List.length (s_pov s) = 4%nat /\ Forall (fun r => List.length r = 37%nat) (s_pov s) /\
  List.length (s_sute s) = 4%nat /\ Forall (fun r => List.length r = 37%nat) (s_sute s) /\
  List.length (s_reaches s) = 4%nat /\ List.length (s_dreaches s) = 4%nat /\
  List.length (s_ippatsu s) = 4%nat /\ List.length (s_menzen s) = 4%nat /\ List.length (s_melds s) = 4%nat.

Lemma wf_ippatsu s : wf s -> List.length (s_ippatsu s) = 4%nat.
Proof. intros (_ & _ & _ & _ & _ & _ & _ & _ & _ & _ & _ & _ & _ & H & _). exact H. Qed.
Lemma wf_htf s : wf s -> List.length (s_htf s) = 4%nat.
Proof. intros (_ & _ & _ & _ & H & _). exact H. Qed.

Lemma pset_ok l i v l' n : List.length l = n -> pset l i v = Ok l' ->
  l' = vset l (Z.to_nat (i mod Z.of_nat n)) v /\ - Z.of_nat n <= i < Z.of_nat n.
Proof.
  intros <- H. unfold pset in H. binv H. pose proof (py_index_range _ _ _ E). apply py_index_mod in E as [-> _].
  injection H as <-. auto.
Qed.

Lemma set_rtsumo_if (b : bool) s : (if b then set_rtsumo (s_rtsumo s - 1) s else s) = set_rtsumo (s_rtsumo s - (if b then 1 else 0)) s.
Proof. destruct b; [reflexivity|]. destruct s; unfold set_rtsumo; cbn. now rewrite Z.sub_0_r. Qed.

Lemma reach2_who w tok : reach2idx w = Ok tok -> 0 <= w < 4.
Proof.
  unfold reach2idx. intros H. apply bind_ok in H as (u & E & _). apply passert_ok in E.
  apply andb_prop in E as [A B]. apply Z.leb_le in A. apply Z.ltb_lt in B. lia.
Qed.
Lemma naki2idx_who w c tok : naki2idx w c = Ok tok -> 0 <= w < 4.
Proof.
  unfold naki2idx. intros H. apply bind_ok in H as (u & E & _). apply passert_ok in E.
  apply andb_prop in E as [A B]. apply Z.leb_le in A. apply Z.ltb_lt in B. lia.
Qed.

(** *** One lemma per kind of play *)
Lemma dora_inv s t s' : dora_step s t = Ok s' ->
  -136 <= t < 136 /\ exists tok, new_dora2idx (Z.of_nat (hd 0%nat (tix t))) = Ok tok /\
  s' = add_token tok (apply (PlDora t) s).
Proof.
  unfold dora_step. intros H. binv H. pose proof (tile2idx_range _ _ E). apply tile2idx_ok in E. subst x.
  injection H as <-. eauto 6.
Qed.

Lemma reach1_inv s w s' : wf s -> reach1_step s w = Ok s' ->
  guard (PlReach1 w) s /\
  s' = set_half (upd_during (fun ds => upd ds DECISION_REACH_IDX exec_first) (s_half s)) (apply (PlReach1 w) s).
Proof.
  intros W H. unfold reach1_step in H. binv H. apply passert_ok in E, E0. injection H as <-.
  cbn [s_ippatsu set_half] in E1.
  destruct (pset_ok _ _ _ _ 4%nat (wf_ippatsu _ W) E1) as [-> R].
  split; [|reflexivity]. split; [exact E|]. split; [|exact R]. destruct (s_acquired s); [discriminate|discriminate E0].
Qed.

Lemma reach2_inv s w s' : wf s -> reach2_step s w = Ok s' ->
  guard (PlReach2 w) s /\ exists tok, reach2idx w = Ok tok /\ s' = add_token tok (apply (PlReach2 w) s).
Proof.
  intros W H. unfold reach2_step in H. binv H. apply passert_ok in E.
  pose proof (reach2_who _ _ E3) as R. cbn [s_ippatsu s_scores s_dreaches s_cycles s_menzen set_kyotaku set_reaches set_scores
    set_dreaches add_token set_tokens s_kyotaku s_reaches s_tokens] in *.
  destruct W as (_ & _ & _ & _ & _ & _ & _ & _ & _ & _ & _ & L1 & L2 & L3 & L4 & _).
  destruct (pset_ok _ _ _ _ 4%nat L1 E0) as [-> _].
  destruct (pset_ok _ _ _ _ 4%nat L3 E4) as [-> _].
  change (Z.of_nat 4) with 4 in *. rewrite (Z.mod_small w 4) in * by lia.
  unfold padd in E1. apply bind_ok in E1 as (k & E5 & E1).
  assert (K : k = Z.to_nat w /\ (Z.to_nat w < List.length (s_scores s))%nat).
  { apply py_index_ok in E5 as [Lt [Ex|[N _]]]; [|lia]. lia. }
  destruct K as [-> K]. injection E1 as <-.
  injection H as <-. split; [cbn; auto|]. exists x3. split; [assumption|].
  destruct ((s_cycles s <=? 4) && all_set (s_menzen s)) eqn:EC.
  - destruct (pset_ok _ _ _ _ 4%nat L2 E2) as [-> _]. change (Z.of_nat 4) with 4. rewrite Z.mod_small by lia.
    unfold apply. rewrite EC. reflexivity.
  - injection E2 as <-. unfold apply. rewrite EC. reflexivity.
Qed.

Ltac ss := cbv beta iota zeta delta [set_hands set_ht set_htf set_rem set_pov set_sute set_rtsumo set_doras set_scores set_kyotaku set_reaches set_dreaches set_ippatsu set_menzen set_melds set_cur set_cycles set_acquired set_sobj set_half set_tokens s_hands s_ht s_htf s_rem s_pov s_sute s_rtsumo s_doras s_scores s_kyotaku s_reaches s_dreaches s_ippatsu s_menzen s_melds s_cur s_cycles s_acquired s_sobj s_half s_tokens add_token add_half apply].

(** The variables when a drawn tile is evaluated. *)
Definition at_draw (p : nat) (t : Z) (s : rstate) : rstate :=
  set_ippatsu (if truthy (vget (s_ippatsu s) p) then vset (s_ippatsu s) p 0 else s_ippatsu s) (apply (PlDraw (Z.of_nat p) t) s).

Lemma capture_cur n p b s : capture n p (set_cur b s) = capture n p s.
Proof. reflexivity. Qed.
Lemma args_cur n b s : args_of n (set_cur b s) = args_of n s.
Proof. reflexivity. Qed.
Lemma reach_cand_cur L p b s : reach_candidates L p (set_cur b s) = reach_candidates L p s.
Proof. reflexivity. Qed.

Lemma draw_end (s : rstate) p t b (X : option sobj) (H : list (halfturn sobj)) :
  let s1 := set_cur true (set_half H (set_sobj X (set_cur b (at_draw p t s)))) in
  (if any_set (s_ippatsu s1) then set_ippatsu (repeat 0 4) s1 else s1) =
  set_cur true (set_half H (set_sobj X (apply (PlDraw (Z.of_nat p) t) s))).
Proof.
  destruct s as [f1 f2 f3 f4 f5 f6 f7 f8 f9 f10 f11 f12 ip f14 f15 f16 f17 f18 f19 f20 f21].
  cbv zeta. unfold at_draw. cbn [s_ippatsu set_cur set_half set_sobj set_ippatsu].
  set (ip2 := if truthy (vget ip p) then vset ip p 0 else ip). destruct (any_set ip2) eqn:E; ss; rewrite !Nat2Z.id; fold ip2; rewrite E; reflexivity.
Qed.

Lemma draw_inv L n s p t s' : (p < 4)%nat -> wf s -> draw_step L n s p t = Ok s' ->
  guard (PlDraw (Z.of_nat p) t) s /\
  exists ag re ank kak,
  evaluate_tsumo (l_agari L) (args_of n (at_draw p t s)) p (s_htf (at_draw p t s)) (s_melds (at_draw p t s)) t
     (s_rtsumo (at_draw p t s) =? 0) false (s_cycles (at_draw p t s) =? 1)
     ((2 <=? s_cycles (at_draw p t s)) && (s_cycles (at_draw p t s) <=? 4) && all_set (s_menzen (at_draw p t s))) = Ok ag /\
  reach_candidates L p (at_draw p t s) = Ok re /\
  ankan_candidates p (row (s_ht (at_draw p t s)) p) = Ok ank /\
  kakan_candidates p (row (s_hands (at_draw p t s)) p) (row (s_melds (at_draw p t s)) p) = Ok kak /\
  s' = set_cur true (add_half (DuringTurn (Z.of_nat p) (capture n p (at_draw p t s)) [ag; re; ank ++ kak] (ntokens s))
         (set_sobj (Some (capture n p (at_draw p t s))) (apply (PlDraw (Z.of_nat p) t) s))).
Proof.
  intros Hp W H. unfold draw_step in H. apply bind_ok in H as (s1 & E & H). unfold draw_tile in E. binv E.
  apply passert_ok in E0, E3, E4. pose proof (tile2idx_range _ _ E1) as R. apply tile2idx_ok in E1. apply py_index_tid in E2.
  subst x0 x1. apply Z.eqb_eq in E3, E4.
  cbn [s_hands s_ht s_ippatsu set_rtsumo set_pov set_rem set_acquired set_cycles set_cur set_htf set_ht set_hands] in *.
  assert (Es : s1 = set_cur false (at_draw p t s)).
  { injection E as <-. unfold at_draw, apply. rewrite Nat2Z.id.
    destruct (truthy (vget (s_ippatsu s) p)); reflexivity. }
  clear E. subst s1.
  split.
  - unfold guard. rewrite Nat2Z.id. destruct (s_acquired s); [discriminate E0|]. split; [reflexivity|].
    split; [exact R|]. split; [exact E3|]. unfold apply. rewrite Nat2Z.id. cbn. exact E4.
  - rewrite args_cur, reach_cand_cur, capture_cur in H.
    cbn [s_htf s_melds s_rtsumo s_cycles s_menzen s_ht s_hands set_cur] in H.
    apply bind_ok in H as (ag & H1 & H). apply bind_ok in H as (re & H2 & H).
    apply bind_ok in H as (ank & H3 & H). apply bind_ok in H as (kak & H4 & H).
    exists ag, re, ank, kak. split; [exact H1|]. split; [exact H2|]. split; [exact H3|]. split; [exact H4|].
    injection H as <-. exact (draw_end s p t false _ _).
Qed.

Lemma discard_inv L n s p t s' : (p < 4)%nat -> wf s -> discard_step L n s p t = Ok s' ->
  guard (PlDiscard (Z.of_nat p) t) s /\
  exists so acq tok rons nakis, s_sobj s = Some so /\ s_acquired s = Some acq /\
    discard2idx (Z.of_nat p) (Z.of_nat (hd 0%nat (tix t))) (t =? acq) = Ok tok /\
    evaluate_ron (l_agari L) (args_of n s) (Z.of_nat p) (s_htf (apply (PlDiscard (Z.of_nat p) t) s)) (s_melds s)
       (s_sute (apply (PlDiscard (Z.of_nat p) t) s)) t false (s_rtsumo s =? 0)
       ((s_cycles s <=? 3) && (s_cycles s <=? Z.of_nat p) && all_set (s_menzen s)) 
      = Ok (s_htf (apply (PlDiscard (Z.of_nat p) t) s), rons) /\
    decision_mask (Z.of_nat p) (s_ht (apply (PlDiscard (Z.of_nat p) t) s)) (Z.of_nat (hd 0%nat (tix t)))
       (Nat.eqb (List.length (tix t)) 2) = Ok nakis /\
    List.length rons = 4%nat /\
    s' = add_token tok (set_cur true
          (add_half (PostTurn (Z.of_nat p) so (dec_lists rons (fun q => if Nat.eqb q p then [] else nth q nakis [])) (ntokens s))
          (add_half (DiscardTurn (Z.of_nat p) so t (ntokens s)) (apply (PlDiscard (Z.of_nat p) t) s)))).
Proof.
  intros Hp W H. unfold discard_step in H. binv H. destruct x6 as [htf rons]. binv H.
  apply passert_ok in E0, E3, E5.
  pose proof (tile2idx_range _ _ E1) as R. apply tile2idx_ok in E1. apply py_index_tid in E2. subst x1 x2.
  cbn [s_hands s_ht s_htf s_sobj s_sute s_half s_pov s_cur set_rtsumo set_pov set_rem set_acquired set_cycles set_cur set_htf set_ht set_hands
   set_sute add_half set_half] in *.
  destruct (s_sobj s) as [so|] eqn:Es; [|discriminate E4]. injection E4 as <-.
  destruct (s_acquired s) as [acq|] eqn:Ea; [|discriminate E]. injection E as <-.
  apply Z.eqb_eq in E3, E5. pose proof E6 as Er.
  apply evaluate_ron_same in E6 as [Ef Lr];
    [|cbn; unfold upd_row; rewrite length_upd; apply wf_htf, W]. subst htf.
  split.
  { unfold guard. rewrite Nat2Z.id. rewrite Ea, Es. split; [discriminate|]. split.
    - apply orb_prop in E0 as [E0|E0]; [left; now apply negb_true_iff|right; exact E0].
    - split; [exact R|]. split; [exact E3|]. split; [discriminate|]. unfold apply. rewrite Nat2Z.id. cbn. exact E5. }
  exists so, acq, x8, rons, x6. split; [reflexivity|]. split; [reflexivity|]. split; [exact E9|].
  unfold apply. rewrite Nat2Z.id. cbn [s_ht s_htf s_sute set_acquired set_pov set_sute set_htf set_ht set_hands].
  split; [exact Er|].
  split; [exact E7|]. split; [exact Lr|]. injection H as <-. reflexivity.
Qed.

Lemma mk_naki_code c nk : mk_naki c = Ok nk -> nk_code nk = c.
Proof. unfold mk_naki. intros H. binv H. now injection H as <-. Qed.


(** The variables when the state object of a call is built. *)
Definition at_call (w c : Z) (s : rstate) : rstate := set_ippatsu (s_ippatsu s) (apply (PlCall w c) s).

Lemma capture_mid n p dn tok m z ip a cy sa :
  capture n p (set_half dn (add_token tok (set_melds m (set_menzen z (set_ippatsu ip (set_acquired a (set_cycles cy sa))))))) =
  capture n p (set_ippatsu ip sa).
Proof. reflexivity. Qed.

Lemma Ok_inj {A} (a b : A) : Ok a = Ok b -> a = b.
Proof. now injection 1. Qed.

Lemma call_fields s w c : let sa := apply (PlCall w c) s in
  s_melds sa = (let l := upd (s_melds s) (Z.to_nat w) (fun l => l ++ [match mk_naki c with Ok nk => nk | Err _ => raw_naki c end]) in
                if is_kakan c then upd l (Z.to_nat w) (drop_pon (hd 0 (shown_by c) / 4)) else l) /\
  s_cycles sa = s_cycles s + (w - from_who c) mod 4 + b2z (is_minkan c || is_ankan c || is_kakan c) /\
  s_acquired sa = (if is_minkan c || is_ankan c || is_kakan c then None else hd_error (claimed_by c)) /\
  s_tokens sa = s_tokens s /\ s_half sa = s_half s /\ s_cur sa = s_cur s /\
  List.length (s_htf sa) = List.length (s_htf s).
Proof.
  destruct s. ss. do 6 (split; [reflexivity|]). destruct (hd_error (claimed_by c)); [unfold upd_row; apply length_upd|reflexivity].
Qed.

Lemma call_mid s w c nk tok dn so sx :
  sx = set_half dn (add_token tok (set_melds (upd (s_melds s) (Z.to_nat w) (fun l => l ++ [nk]))
     (set_menzen (s_menzen s) (set_ippatsu (s_ippatsu s) (set_acquired (s_acquired s)
      (set_cycles (s_cycles s + (w - from_who c) mod 4) (apply (PlCall w c) s))))))) ->
  (let s1 := set_sobj (Some so) sx in
   let s2 := if negb (from_who c =? 0) then set_menzen (vset (s_menzen s1) (Z.to_nat w) 0) s1 else s1 in
   if any_set (s_ippatsu s2) then set_ippatsu (repeat 0 4) s2 else s2) =
  set_half dn (add_token tok (set_melds (upd (s_melds s) (Z.to_nat w) (fun l => l ++ [nk]))
     (set_acquired (s_acquired s) (set_cycles (s_cycles s + (w - from_who c) mod 4)
       (set_sobj (Some so) (apply (PlCall w c) s)))))).
Proof.
  intros ->. destruct s as [f1 f2 f3 f4 f5 f6 f7 f8 f9 f10 f11 f12 ip f14 f15 f16 f17 f18 f19 f20 f21].
  destruct (any_set ip) eqn:E; destruct (negb (from_who c =? 0)) eqn:E2; cbv zeta;
  match goal with |- (if any_set ?x then _ else _) = _ => change x with ip; rewrite E end; ss; rewrite E, E2; reflexivity.
Qed.

Lemma call_inv L n s w c nk s' : wf s -> mk_naki c = Ok nk -> naki_step L n s nk w = Ok s' ->
  guard (PlCall w c) s /\
  exists tok, naki2idx w c = Ok tok /\
  let so := capture n (Z.to_nat w) (at_call w c s) in
  let sa := apply (PlCall w c) s in
  let done := if is_ankan c || is_kakan c
     then upd_during (fun ds => upd ds DECISION_NAKI_IDX (exec_match (nk_conv nk))) (s_half s)
     else upd_post (fun ds => map (fun l => upd l DECISION_NAKI_IDX (exec_match (nk_conv nk))) ds) (s_half s) in
  exists hs, s' = set_cur false (set_sobj (Some so) (set_half hs (add_token tok sa))) /\
  if is_kakan c then
    exists rons, evaluate_ron (l_agari L) (args_of n sa) w (s_htf sa) (s_melds sa) (s_sute sa) (hd 0 (shown_by c)) true false false
       = Ok (s_htf sa, rons) /\ List.length rons = 4%nat /\
       hs = PostTurn w so (dec_lists rons (fun _ => [])) (ntokens s + 1) :: done
  else hs = done.
Proof.
  intros W Hn H. pose proof (mk_naki_code _ _ Hn) as Hc.
  unfold naki_step in H. rewrite Hc in H.
  apply bind_ok in H as (p & Ep & H). apply bind_ok in H as (tok & Et & H).
  pose proof (naki2idx_who _ _ _ Et) as Hw.
  assert (Epp : p = Z.to_nat w).
  { apply py_index_mod in Ep as [-> _]. change (Z.of_nat 4) with 4. now rewrite Z.mod_small by lia. }
  subst p. clear Ep.
  apply bind_ok in H as (s1 & E1 & H).
  apply bind_ok in H as ([ex acq] & Ex & H).
  apply bind_ok in H as (eidx & Ei & H).
  apply bind_ok in H as (s2 & E2 & H). apply bind_ok in H as (s3 & E3 & H). apply bind_ok in H as (s4 & E4 & H).
  injection H as <-.
  apply map_tix in Ei as [-> Rex].
  set (dn := if is_ankan c || is_kakan c
     then upd_during (fun ds => upd ds DECISION_NAKI_IDX (exec_match (nk_conv nk))) (s_half s)
     else upd_post (fun ds => map (fun l => upd l DECISION_NAKI_IDX (exec_match (nk_conv nk))) ds) (s_half s)).
  assert (Es1 : s1 = set_half dn (add_token tok (set_melds (upd (s_melds s) (Z.to_nat w) (fun l => l ++ [nk]))
             (set_cycles (s_cycles s + (w - from_who c) mod 4) s))) /\
     (if is_ankan c || is_kakan c then cur_during s = true else cur_post s = true)).
  { unfold dn. destruct (is_ankan c || is_kakan c); binv E1; apply passert_ok in E; injection E1 as <-; (split; [reflexivity|exact E]). }
  destruct Es1 as [-> Gc]. clear E1.
  apply foldM_expose in E2 as [-> Gx];
    [|rewrite set_rtsumo_if; cbn; destruct W as (Lh & _); rewrite Lh; lia].
  rewrite set_rtsumo_if in *.
  cbn [s_hands set_pov set_rtsumo set_half add_token set_tokens set_melds set_cycles] in Gx.
  rewrite fold_expose1 in E3.
  assert (Esh : shown_by c = ex) by (unfold shown_by; now rewrite Ex).
  assert (Ecl : claimed_by c = match acq with Some a => [a] | None => [] end) by (unfold claimed_by; rewrite Ex; now destruct acq).
  assert (Ea : hd_error (claimed_by c) = acq) by (rewrite Ecl; now destruct acq).
  assert (Racq : Forall (fun x => -136 <= x < 136) (claimed_by c)).
  { rewrite Ecl. destruct acq as [a|]; [|constructor]. binv E3. apply tile2idx_range in E. constructor; [exact E|constructor]. }
  split.
  { unfold guard. split; [lia|]. split; [eauto|]. split; [eauto|]. split; [exact Gc|]. rewrite Esh.
    split; [apply Forall_app; split; assumption|exact Gx]. }
  exists tok. split; [exact Et|]. cbv zeta.
  assert (Es3 : s3 = set_half dn (add_token tok (set_melds (upd (s_melds s) (Z.to_nat w) (fun l => l ++ [nk]))
     (set_menzen (s_menzen s) (set_ippatsu (s_ippatsu s) (set_acquired (s_acquired s)
      (set_cycles (s_cycles s + (w - from_who c) mod 4) (apply (PlCall w c) s)))))))).
  { unfold apply. rewrite Esh, Ea. destruct acq as [a|].
    - binv E3. apply tile2idx_ok in E. subst. injection E3 as <-. reflexivity.
    - injection E3 as <-. reflexivity. }
  clear E3. subst s3.
  assert (Emn : match mk_naki c with Ok nk => nk | Err _ => raw_naki c end = nk) by now rewrite Hn.
  set (so := capture n (Z.to_nat w) (at_call w c s)).
  set (sp := set_half dn (add_token tok (set_melds (upd (s_melds s) (Z.to_nat w) (fun l => l ++ [nk]))
     (set_acquired (s_acquired s) (set_cycles (s_cycles s + (w - from_who c) mod 4)
       (set_sobj (Some so) (apply (PlCall w c) s))))))).
  rewrite capture_mid in E4. fold (at_call w c s) in E4. fold so in E4.
  match type of E4 with (if is_kakan c then _ else Ok ?s0) = _ =>
    assert (Esp : s0 = sp) end.
  { clear E4. unfold sp.
    exact (call_mid s w c nk tok dn so _ eq_refl). }
  rewrite Esp in E4. clear Esp.
  destruct (call_fields s w c) as (F1 & F2 & F3 & F4 & F5 & F6 & F7).
  unfold sp in E4. clear sp. clearbody so. revert F1 F2 F3 F4 F5 F6 F7 E4. generalize (apply (PlCall w c) s). intros sa.
  rewrite Esh, Ea, Emn, (wf_htf _ W). intros F1 F2 F3 F4 F5 F6 F7 E4.
  destruct (is_kakan c) eqn:Ek.
  - rewrite !orb_true_r in *.
    destruct ex as [|e0 ex]; [discriminate E4|]. cbn [hd] in *.
    apply bind_ok in E4 as ([htf rons] & Er & E4).
    pose proof Er as Er2. apply evaluate_ron_same in Er2 as [-> Lr]; [|exact F7].
    apply Ok_inj in E4. subst s4.
    exists (PostTurn w so (dec_lists rons (fun _ => [])) (ntokens s + 1) :: dn).
    split.
    + replace (ntokens s + 1) with (Z.of_nat (List.length (s_tokens sa ++ [tok])))
        by (rewrite app_length, F4; unfold ntokens; cbn [List.length]; lia).
      clear - F1 F2 F3. destruct sa. cbn in F1, F2, F3. subst. unfold ntokens. ss. reflexivity.
    + exists rons. split; [|split; [exact Lr|reflexivity]]. clear - F1 Er. destruct sa. cbn in F1. subst. exact Er.
  - rewrite !orb_false_r in *. apply Ok_inj in E4. subst s4. exists dn. split; [|reflexivity].
    clear - F1 F2 F3. destruct sa. cbn in F1, F2, F3. subst. ss.
    destruct (is_minkan c || is_ankan c); ss; cbn [b2z]; rewrite ?Z.add_0_r; reflexivity.
Qed.
