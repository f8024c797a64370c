(** C129: an open kan is never the target of a sample.
    [spec_kind], [in_range]: SpecMeld.v; [plays_of_round]: SpecRound.v; [silent]: PropsOutputs.v. *)
From Coq Require Import ZArith List Bool String Ascii Lia PeanoNat Permutation.
From Verif Require Import Base Constants Naki Decision Tokens GameInfo Agari Process VecLemmas
  SpecMeld SpecTokens SpecRound SpecDecision SpecTurn SpecLabels NakiProofs NakiLemmas NakiCore NakiLemmas2 TokensLemmas DecisionProofs DecisionLemmas
  RoundLemmas RoundInv RoundTiles RoundInit RoundBook RoundFlags RoundSplit RoundHalf RoundFacts RoundQuery RoundCount RoundLabels RoundMelds AgariLemmas TurnFacts
  Tensor SpecTensor SpecWinLabel TensorLemmas TensorRound PropsTensor RoundExamples PropsWinLabel PropsOutputs.
Import ListNotations.
Open Scope Z_scope.

(** The tile discarded last. *)
Fixpoint last_discarded (pls : list play) : option Z :=
  match pls with
  | [] => None
  | a :: l => match last_discarded l with Some t => Some t | None => match a with PlDiscard _ t => Some t | _ => None end end
  end.
(** What the game guarantees of an open kan: its code is one of the 16-bit codes of an
    open kan, and the tile it claims is the tile discarded last. *)
Definition kans_claim_discards (pls : list play) : Prop := forall pre w c post, pls = pre ++ PlCall w c :: post -> spec_kind c = Some Minkan ->
  in_range c /\ 0 <= c < 65536 /\ exists ex t, get_exposed c = Ok (ex, Some t) /\ last_discarded pre = Some t.

Lemma last_discarded_snoc h a : last_discarded (h ++ [a]) = match a with PlDiscard _ t => Some t | _ => last_discarded h end.
Proof.
  induction h as [|b h IH]; [destruct a; reflexivity|]. cbn [app last_discarded]. rewrite IH. destruct a; try reflexivity.
Qed.

(** ** Candidates *)
Definition kanish (nk : naki) : Prop := exists i, get_post_turn_filter_idx (nk_code nk) = Ok i /\ 120 <= i.
Definition kan_of (t c : Z) : Prop := spec_kind c = Some Minkan /\ in_range c /\ 0 <= c < 65536 /\ exists ex, get_exposed c = Ok (ex, Some t).
Definition unmatched (h : list play) (d : decision) : Prop := match d with NakiDecision _ nk e => kanish nk -> e = false /\ spec_kind (nk_conv nk) = Some Minkan /\
    forall t, last_discarded h = Some t -> forall c nkc, kan_of t c -> mk_naki c = Ok nkc -> nk_conv nk <> nk_conv nkc | _ => True end.
Definition quiet (d : decision) : Prop := match d with NakiDecision _ nk e => kanish nk -> e = false | _ => True end.
Definition quiet_half {S} (h : halfturn S) : Prop := match h with PostTurn _ _ ds _ => Forall (Forall (Forall quiet)) ds | _ => True end.
Definition head_ok (h : list play) (hs : list (halfturn sobj)) : Prop :=
  match hs with PostTurn _ _ ds _ :: _ => Forall (Forall (Forall (unmatched h))) ds | _ => True end.

Definition q_kan (t : Z) (r : bool) (v : view) (nk : naki) : bool :=
  match get_post_turn_filter_idx (nk_code nk) with Ok i => implb (120 <=? i) (okind_eqb (spec_kind (nk_code nk)) (Some Minkan)) | Err _ => true end &&
  (nk_conv nk =? nk_code nk).
Lemma q_kan_all : all_cases (each q_kan) = true.
Proof. vm_cast_no_check (eq_refl true). Qed.

Lemma kan_tile_sweep : sweep 16 (fun c => implb (okind_eqb (spec_kind c) (Some Minkan) && in_rangeb c)
  match get_exposed c with Ok (_, Some a) => (0 <=? a) && (a <? 136) | _ => false end) = true.
Proof. vm_cast_no_check (eq_refl true). Qed.
Lemma kan_tile t c : kan_of t c -> 0 <= t < 136.
Proof.
  intros (K & R & B & ex & E). pose proof (sweep16 _ kan_tile_sweep c B) as S. cbv beta in S.
  pose proof (in_rangeb_ok c R) as Rb. rewrite (lo_small c B) in Rb. rewrite K, Rb, E in S. cbn [okind_eqb kind_eqb andb implb] in S.
  apply andb_prop in S as [S1 S2]. apply Z.leb_le in S1. apply Z.ltb_lt in S2. lia.
Qed.
Lemma tix_red : forallb (fun k => Bool.eqb (Nat.eqb (List.length (tix (Z.of_nat k))) 2) (red_fiveb (Z.of_nat k))) (seq 0 136) = true.
Proof. vm_compute. reflexivity. Qed.
Lemma tix_red_ok t : 0 <= t < 136 -> Nat.eqb (List.length (tix t)) 2 = red_fiveb t.
Proof.
  intros H. pose proof tix_red as A. rewrite forallb_forall in A. specialize (A (Z.to_nat t)). rewrite in_seq in A. specialize (A ltac:(lia)).
  rewrite Z2Nat.id in A by lia. apply Bool.eqb_prop in A. exact A.
Qed.

Lemma discard_unmatched L n s h w t s' : wf s -> 0 <= w < 4 -> discard_step L n s (Z.to_nat w) t = Ok s' ->
  exists so ds, s_half s' = PostTurn w so ds (ntokens s) :: DiscardTurn w so t (ntokens s) :: s_half s /\ Forall (Forall (Forall (unmatched (h ++ [PlDiscard w t])))) ds.
Proof.
  intros W S H. destruct (ap_frame (PlDiscard w t) s) as (F1 & F2 & F3 & F4). assert (Ew : w = Z.of_nat (Z.to_nat w)) by lia.
  assert (Lh : List.length (s_ht (apply (PlDiscard w t) s)) = 4%nat) by (rewrite ap_ht, length_upd; apply W).
  apply discard_inv in H as (_ & so & acq & tok & rons & nakis & Eso & Ea & Et & Er & Em & _ & ->); [|lia|exact W].
  rewrite <- Ew in *. exists so. eexists. split.
  { revert F1. generalize (apply (PlDiscard w t) s). intros sa F1. rewrite <- F1. destruct sa; reflexivity. }
  apply Forall_forall. intros d Hd. apply (In_nth _ _ []) in Hd as (k & Hk & <-). rewrite dec_lists_nth by (change (k < 4)%nat in Hk; exact Hk). change (k < 4)%nat in Hk.
  pose proof (rons_shape _ _ _ _ _ _ _ _ _ _ _ _ _ k Hk Er) as Rs.
  constructor; [destruct Rs as [-> | ->]; repeat constructor|]. constructor; [constructor|]. constructor; [|constructor].
  destruct (Nat.eqb k (Z.to_nat w)); [constructor|].
  apply Forall_forall. intros d Hd. replace (nth k nakis []) with (offered nakis (Z.of_nat k)) in Hd by (unfold offered; rewrite Nat2Z.id; reflexivity).
  pose proof (tid_range t).
  assert (Ht : 0 <= Z.of_nat (hd 0%nat (tix t)) < 34).
  { rewrite (proj1 (tix_hd t)). assert (0 <= tid t / 4 < 34) by (split; [apply Z.div_pos; lia|apply Z.div_lt_upper_bound; lia]). rewrite Z2Nat.id by lia. assumption. }
  destruct (each_offered _ q_kan_all _ _ _ _ _ (Z.of_nat k) d Lh S Ht ltac:(lia) Em Hd) as (_ & nk & -> & Q).
  unfold q_kan in Q. apply andb_prop in Q as [Q1 Q2]. apply Z.eqb_eq in Q2. cbn [unmatched]. intros (i & I1 & I2). rewrite I1 in Q1.
  replace (120 <=? i) with true in Q1 by (symmetry; apply Z.leb_le; exact I2). cbn [implb] in Q1.
  assert (Km : spec_kind (nk_code nk) = Some Minkan) by (destruct (spec_kind (nk_code nk)) as [[]|]; try discriminate Q1; reflexivity).
  split; [reflexivity|]. split; [rewrite Q2; exact Km|]. intros t' Lt c nkc Kc Nc. rewrite last_discarded_snoc in Lt. injection Lt as <-.
  pose proof (kan_tile _ _ Kc) as Rt. destruct Kc as (K1 & K2 & K3 & ex & K4).
  refine (minkan_never_labelled _ _ c nkc _ _ _ ex t (Z.of_nat k) nk Lh S Ht _ Em Nc K1 K2 K3 K4 _ _ Hd).
  - lia.
  - rewrite tile_type_div, (proj1 (tix_hd t)), tid_id by exact Rt. assert (0 <= t / 4) by (apply Z.div_pos; lia). rewrite Z2Nat.id by assumption. reflexivity.
  - symmetry. exact (tix_red_ok t Rt).
Qed.

(** ** Marking *)
Lemma marked_gen (P Q : decision -> Prop) cv l : Forall P l -> (forall d, P d -> Q d) -> (forall d, P d -> matches cv d = true -> Q (set_executed d)) -> Forall Q (exec_match cv l).
Proof.
  intros F A B. induction F as [|d l D F IH]; cbn [exec_match]; [constructor|]. destruct (matches cv d) eqn:M; constructor; auto. eapply Forall_impl; [exact A|exact F].
Qed.
Lemma upd_gen (P Q : decision -> Prop) cv k ls : Forall (Forall P) ls -> (forall d, P d -> Q d) -> (forall d, P d -> matches cv d = true -> Q (set_executed d)) ->
  Forall (Forall Q) (upd ls k (exec_match cv)).
Proof.
  intros F A B. revert k. induction F as [|l ls D F IH]; intros k; destruct k as [|k]; cbn [upd]; constructor.
  - now apply (marked_gen P).
  - eapply Forall_impl; [|exact F]. intros l' F'. eapply Forall_impl; [exact A|exact F'].
  - eapply Forall_impl; [exact A|exact D].
  - apply IH.
Qed.
Lemma unmatched_quiet h d : unmatched h d -> quiet d.
Proof. destruct d; [|auto..]. cbn. intros H K. apply (H K). Qed.
Lemma all_quiet h ds : Forall (Forall (Forall (unmatched h))) ds -> Forall (Forall (Forall quiet)) ds.
Proof.
  intros F. eapply Forall_impl; [|exact F]. intros l F1. eapply Forall_impl; [|exact F1]. intros l1 F2. eapply Forall_impl; [|exact F2]. intros d. apply unmatched_quiet.
Qed.
Lemma claim_keeps h h' cv c nkc hs : mk_naki c = Ok nkc -> cv = nk_conv nkc -> (exists e, get_exposed c = Ok e) -> last_discarded h' = last_discarded h ->
  (spec_kind c = Some Minkan -> exists t, last_discarded h = Some t /\ kan_of t c) ->
  Forall quiet_half hs -> head_ok h hs ->
  Forall quiet_half (upd_post (fun ds => map (fun l => upd l DECISION_NAKI_IDX (exec_match cv)) ds) hs) /\
  head_ok h' (upd_post (fun ds => map (fun l => upd l DECISION_NAKI_IDX (exec_match cv)) ds) hs).
Proof.
  intros Nc -> [[ex a] Ee] El Kc F Ho. destruct F as [|x hs Hx F]; [split; constructor|]. destruct x as [p so ds i|p so t i|p so ds i]; cbn [upd_post head_ok] in *; [split; [constructor; assumption|exact I]..|].
  assert (U : Forall (Forall (Forall (unmatched h'))) (map (fun l => upd l DECISION_NAKI_IDX (exec_match (nk_conv nkc))) ds)).
  { apply Forall_map. eapply Forall_impl; [|exact Ho]. intros ls Fl. apply (upd_gen (unmatched h)); [exact Fl| |].
    - intros d. destruct d; [|auto..]. cbn [unmatched]. rewrite El. exact (fun x => x).
    - intros d Ud M. destruct d as [q nk e|q e|q e]; try discriminate M. cbn [matches set_executed unmatched] in *. intros K. exfalso. destruct (Ud K) as (_ & Km & Nm).
      apply Z.eqb_eq in M. destruct (normalise c nkc ex a Nc Ee) as (_ & Sk & _). rewrite <- M, Km in Sk. destruct (Kc (eq_sym Sk)) as (t & T1 & T2). exact (Nm t T1 c nkc T2 Nc M). }
  split; [|exact U]. constructor; [|exact F]. cbn [quiet_half]. exact (all_quiet _ _ U).
Qed.
Lemma during_keeps h h' (f : list (list decision) -> list (list decision)) (hs : list (halfturn sobj)) : last_discarded h' = last_discarded h ->
  Forall quiet_half hs -> head_ok h hs -> Forall quiet_half (upd_during f hs) /\ head_ok h' (upd_during f hs).
Proof.
  intros El F Ho. destruct F as [|x hs Hx F]; [split; constructor|]. destruct x; cbn [upd_during head_ok] in *; (split; [constructor; assumption|]); try exact I.
  eapply Forall_impl; [|exact Ho]. intros l F1. eapply Forall_impl; [|exact F1]. intros l1 F2. eapply Forall_impl; [|exact F2].
  intros d. destruct d; [|auto..]. cbn [unmatched]. rewrite El. exact (fun x => x).
Qed.
Lemma same_keeps h h' (hs : list (halfturn sobj)) : last_discarded h' = last_discarded h -> Forall quiet_half hs -> head_ok h hs -> Forall quiet_half hs /\ head_ok h' hs.
Proof.
  intros El F Ho. split; [exact F|]. destruct hs as [|x hs]; [exact I|]. destruct x; cbn [head_ok] in *; try exact I.
  eapply Forall_impl; [|exact Ho]. intros l F1. eapply Forall_impl; [|exact F1]. intros l1 F2. eapply Forall_impl; [|exact F2].
  intros d. destruct d; [|auto..]. cbn [unmatched]. rewrite El. exact (fun x => x).
Qed.
Lemma quiet_holds L go e0 evs n s pls : runs L go e0 evs n s pls -> kans_claim_discards pls -> Forall quiet_half (s_half s) /\ head_ok pls (s_half s).
Proof.
  revert evs s. revert pls. refine (fun pls evs s => runs_ind L go e0 n (fun pls s => kans_claim_discards pls -> Forall quiet_half (s_half s) /\ head_ok pls (s_half s)) _ _ pls evs s).
  - intros s0 In0 _ _. destruct (in_rest _ _ In0) as (_ & _ & _ & _ & _ & _ & _ & _ & _ & H1 & H2 & _). rewrite H2. split; constructor.
  - clear pls evs s. intros evs evs' h a s s' R R' IH W S G E Es Kd.
    assert (Kh : kans_claim_discards h).
    { intros pre w c post -> Sk. destruct (Kd pre w c (post ++ [a])) as (K1 & K2 & K3); [rewrite <- app_assoc; reflexivity|exact Sk|]. auto. }
    specialize (IH Kh). destruct IH as [I1 I2]. pose proof (last_discarded_snoc h a) as El.
    destruct a as [w t|w t|w c|w|w|t]; cbn beta iota in El.
    + apply astep_labels in E; [|assumption..]. destruct E as (so & ag & re & nl & b & -> & _). split; [constructor; [exact I|exact I1]|exact I].
    + cbn [seated astep] in S, E. destruct (discard_unmatched _ _ _ h _ _ _ W S E) as (so & ds & Eh & F). rewrite Eh. cbn [head_ok]. split; [|exact F].
      constructor; [exact (all_quiet _ _ F)|]. constructor; [exact I|exact I1].
    + destruct G as (_ & _ & Ge & _).
      apply astep_labels in E; [|assumption..]. destruct E as (nk & hs & En & Ehs & E1).
      assert (B : Forall quiet_half hs /\ head_ok (h ++ [PlCall w c]) hs).
      { rewrite Ehs. destruct (is_ankan c || is_kakan c); [apply (during_keeps h); assumption|].
        apply (claim_keeps h _ _ c nk); try assumption; [reflexivity|]. intros Sk. destruct (Kd h w c [] eq_refl Sk) as (K1 & K2 & ex & t & K3 & K4). exists t. split; [exact K4|].
        split; [exact Sk|]. split; [exact K1|]. split; [exact K2|]. exists ex. exact K3. }
      destruct (is_kakan c).
      * destruct E1 as (so1 & ds & Eh & Ld & Hd). rewrite Eh. cbn [head_ok].
        assert (U : Forall (Forall (Forall (unmatched (h ++ [PlCall w c])))) ds).
        { apply Forall_forall. intros d Hi. apply (In_nth _ _ []) in Hi as (k & Hk & <-). destruct (Hd (Z.of_nat k) ltac:(lia)) as (b & Eb). rewrite Nat2Z.id in Eb. rewrite Eb.
          constructor; [destruct b; repeat constructor|]. repeat constructor. }
        split; [|exact U]. constructor; [exact (all_quiet _ _ U)|apply B].
      * rewrite E1. exact B.
    + pose proof (astep_labels _ _ _ _ _ W S E) as Eh. cbn beta iota in Eh. rewrite Eh. apply (during_keeps h); assumption.
    + pose proof (astep_labels _ _ _ _ _ W S E) as Eh. cbn beta iota in Eh. rewrite Eh. apply (same_keeps h); assumption.
    + pose proof (astep_labels _ _ _ _ _ W S E) as Eh. cbn beta iota in Eh. rewrite Eh. apply (same_keeps h); assumption.
Qed.

(** ** Samples *)
Lemma quiet_round L go e0 rest half tokens pls : process_round L go (e0 :: rest) = Ok (half, tokens) -> plays_of_round (e0 :: rest) pls -> kans_claim_discards pls ->
  Forall quiet_half half.
Proof.
  intros H P K. destruct (round_runs _ _ _ _ _ _ _ H P) as (plays & n & s & R & -> & _).
  apply Forall_map. apply Forall_rev. eapply Forall_impl; [|exact (proj1 (quiet_holds _ _ _ _ _ _ _ R K))]. intros h. destruct h; exact (fun x => x).
Qed.

(** The target of a reaction is to pass, or a chi or pon whose number is not one of the
    fourteen of C128: never a ron and never a kan. *)
Theorem C129_targets_partial : forall L go e0 rest half tokens pls a t, process_round L go (e0 :: rest) = Ok (half, tokens) -> plays_of_round (e0 :: rest) pls ->
  kans_claim_discards pls -> build_tensors a half tokens = Ok t ->
  Forall (fun r => r_label r = 0 \/ 2 <= r_label r <= 119 /\ ~ In (r_label r) silent) (t_post t).
Proof.
  intros L go e0 rest half tokens pls a t H P K B. pose proof (C113_never_partial _ _ _ _ _ _ _ _ _ H P B) as Nw. apply Forall_app in Nw as [_ Nw].
  pose proof (C128_never_partial _ _ _ _ _ _ _ H B) as Ns. pose proof (quiet_round _ _ _ _ _ _ _ H P K) as Q. destruct (formed_rounds _ _ _ _ _ H) as [W X].
  destruct (C45_labels a half tokens t B W X) as (rows & E & F).
  assert (M : Forall (fun r => (r_label r = 0 \/ r_label r < 120) /\ allowed_by r (r_label r)) (t_post t)).
  { rewrite E. apply Forall_concat. clear E.
    assert (Qr : Forall quiet_half (reactions half)) by (apply Forall_forall; intros h Hh; apply filter_In in Hh as [Hh _]; rewrite Forall_forall in Q; exact (Q h Hh)).
    clear - F Qr. induction F as [|h rs l l' F1 F IH]; [constructor|]. inversion Qr as [|? ? Qh Ql]; subst. constructor; [|exact (IH Ql)].
    clear IH Ql Qr F. induction F1 as [|q r qs rs' M F1 IH]; constructor; [|exact IH]. destruct M as (_ & M & A). split; [|exact A].
    destruct M as [(d & D1 & D2 & D3)|(_ & ->)]; [right|now left].
    destruct h as [| |p so ds k]; cbn [decisions_for] in D1; try destruct D1. cbn [quiet_half] in Qh. apply in_concat in D1 as (l0 & L1 & L2).
    assert (Y : quiet d).
    { destruct (nth_in_or_default (Z.to_nat q) ds []) as [Z1|Z1]; [|rewrite Z1 in L1; destruct L1]. rewrite Forall_forall in Qh. specialize (Qh _ Z1). rewrite Forall_forall in Qh. specialize (Qh _ L1). rewrite Forall_forall in Qh. exact (Qh _ L2). }
    destruct d as [pl nk e|pl e|pl e]; cbn [post_action quiet d_executed] in D2, D3, Y; [|lia|lia].
    destruct (Z_lt_dec (r_label r) 120) as [T|T]; [exact T|]. exfalso. rewrite Y in D2; [discriminate D2|]. exists (r_label r). split; [exact D3|lia]. }
  apply Forall_forall. intros r Hr. rewrite Forall_forall in M, Nw, Ns. destruct (M r Hr) as [[M1|M1] M2]; [now left|]. specialize (Nw r Hr). unfold WIN in Nw.
  assert (N0 : 0 <= r_label r) by apply M2.
  destruct (Z.eq_dec (r_label r) 0) as [Z0|Z0]; [now left|right]. split; [lia|]. intros Is. exact (proj2 (Ns r Hr _ Is) eq_refl).
Qed.
Print Assumptions C129_targets_partial.

(** A round in which the dealer calls an open kan of 1m. *)
Definition kan_events : list event := [MkEvent "T124" []; MkEvent "D124" []; MkEvent "U3" []; MkEvent "E3" []; MkEvent "N" [("who","0"); ("m","769")]; MkEvent "T125" []; MkEvent "D125" []]%string.
Definition kan_plays : list play := [PlDraw 0 124; PlDiscard 0 124; PlDraw 1 3; PlDiscard 1 3; PlCall 0 769; PlDraw 0 125; PlDiscard 0 125].
Definition kan_round : list event := hd (MkEvent "" []) small_round :: kan_events ++ [MkEvent "RYUUKYOKU" [("sc","0,0,0,0")]]%string.
Lemma kan_round_plays : plays_of_round kan_round kan_plays.
Proof.
  exact (plays_check (hd (MkEvent "" []) small_round) kan_events [MkEvent "RYUUKYOKU" [("sc","0,0,0,0")]]%string eq_refl eq_refl eq_refl).
Qed.
Lemma kan_round_claims : kans_claim_discards kan_plays.
Proof.
  intros pre w c post E K. unfold kan_plays in E. repeat (destruct pre as [|? pre]; cbn [app] in E; [try discriminate E|injection E as <- E]); [|destruct pre; discriminate E].
  injection E as <- <- _. split; [vm_compute; split; reflexivity|]. split; [lia|]. eexists. eexists. split; vm_compute; reflexivity.
Qed.

(** C129 is false: the kan is allowed in the sample of the player who calls it, and the
    target of that sample is to pass. *)
Theorem C129_refuted : exists L go e0 rest half tokens pls a t r w c i,
  process_round L go (e0 :: rest) = Ok (half, tokens) /\ plays_of_round (e0 :: rest) pls /\ kans_claim_discards pls /\ build_tensors a half tokens = Ok t /\
  In (PlCall w c) pls /\ spec_kind c = Some Minkan /\ get_post_turn_filter_idx c = Ok i /\
  In r (t_post t) /\ r_player r = w /\ allowed_by r i /\ r_label r = 0.
Proof.
  destruct (sample_round_ok ex_libs TF kan_round (fun h tk t => existsb (fun r => (r_player r =? 0) && (Nat.eqb (List.length (r_mask r)) 154) && (nth 120 (r_mask r) 0 =? 1) && (r_label r =? 0)) (t_post t))) as (h & tk & t & H1 & H2 & H3);
    [vm_compute; reflexivity|]. apply existsb_exists in H3 as (r & Ir & H3). apply andb_prop in H3 as [H3 R4]. apply andb_prop in H3 as [H3 R3]. apply andb_prop in H3 as [R1 R2].
  apply Z.eqb_eq in R1, R3, R4.
  exists ex_libs, 169, (hd (MkEvent "" []) small_round), (kan_events ++ [MkEvent "RYUUKYOKU" [("sc","0,0,0,0")]]%string), h, tk, kan_plays, TF, t, r, 0, 769, 120.
  split; [exact H1|]. split; [exact kan_round_plays|]. split; [exact kan_round_claims|]. split; [exact H2|]. split; [cbn [In kan_plays]; tauto|]. split; [vm_compute; reflexivity|].
  split; [vm_compute; reflexivity|]. split; [exact Ir|]. split; [exact R1|]. split; [|exact R4]. split; [lia|exact R3].
Qed.
Print Assumptions C129_refuted.
