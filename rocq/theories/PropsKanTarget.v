(** C130: which kans on a player's own turn are targets of samples.
    [plays_of_round], [r_label], [r_player]: SpecTensor.v; [spec_kind]: SpecMeld.v. *)
From Coq Require Import ZArith List Bool String Ascii Lia PeanoNat Permutation.
From Verif Require Import Base Constants Naki Decision Tokens GameInfo Agari Process VecLemmas
  SpecMeld SpecTokens SpecRound SpecDecision SpecTurn SpecLabels NakiProofs NakiLemmas NakiCore NakiLemmas2 TokensLemmas DecisionProofs DecisionLemmas
  RoundLemmas RoundInv RoundTiles RoundInit RoundBook RoundFlags RoundSplit RoundHalf RoundFacts RoundQuery RoundCount RoundLabels RoundMelds AgariLemmas TurnFacts
  Tensor SpecTensor SpecWinLabel TensorLemmas TensorRound PropsTensor PropsTurn RoundExamples.
Import ListNotations.
Open Scope Z_scope.

(** The codes the game server writes for a closed kan of tile type [k]: the number of any
    of the four tiles, shifted left by eight. *)
Definition closed_kan_code (k c : Z) : Prop := exists j, 0 <= j < 4 /\ c = 256 * (4 * k + j).
(** What the game server guarantees of the codes: closed kans have one of these, and the code
    of an added kan names the player from whom the pon was claimed. *)
Definition kan_codes_ok (pls : list play) : Prop := forall w c, In (PlCall w c) pls ->
  (spec_kind c = Some Ankan -> exists k, 0 <= k < 34 /\ closed_kan_code k c) /\ (spec_kind c = Some Kakan -> from_who c <> 0).

(** ** Codes *)
Definition closed_chk : bool := forallb (fun k => forallb (fun j => let c := 256 * (4 * k + j) in
  is_ankan c && negb (is_kakan c) && okind_eqb (spec_kind c) (Some Ankan) &&
  match mk_naki c with Ok nk => nk_conv nk =? 1024 * k | Err _ => false end &&
  match get_exposed c with Ok ([a; b; d; e], None) => (a =? 4 * k) && (b =? 4 * k + 1) && (d =? 4 * k + 2) && (e =? 4 * k + 3) | _ => false end &&
  match get_during_turn_filter_idx (1024 * k) with Ok i => i =? 3 + k | Err _ => false end) (zrange 4)) (zrange 34).
Lemma closed_chk_ok : closed_chk = true.
Proof. vm_compute. reflexivity. Qed.
Lemma closed_facts k c : 0 <= k < 34 -> closed_kan_code k c -> is_ankan c = true /\ is_kakan c = false /\ spec_kind c = Some Ankan /\
  (exists nk, mk_naki c = Ok nk /\ nk_conv nk = 1024 * k) /\ shown_by c = [4 * k; 4 * k + 1; 4 * k + 2; 4 * k + 3] /\ get_during_turn_filter_idx (1024 * k) = Ok (3 + k).
Proof.
  intros Hk (j & Hj & ->). pose proof closed_chk_ok as A. unfold closed_chk in A. rewrite forallb_forall in A. specialize (A k (in_zrange k 34 Hk)). rewrite forallb_forall in A.
  specialize (A j (in_zrange j 4 Hj)). cbv zeta in A. revert A. generalize (256 * (4 * k + j)). intros c A.
  apply andb_prop in A as [A A6]. apply andb_prop in A as [A A5]. apply andb_prop in A as [A A4]. apply andb_prop in A as [A A3]. apply andb_prop in A as [A1 A2].
  split; [exact A1|]. split; [now apply negb_true_iff|]. split; [destruct (spec_kind c) as [[]|]; try discriminate A3; reflexivity|].
  split; [destruct (mk_naki c) as [nk|]; [|discriminate A4]; exists nk; split; [reflexivity|now apply Z.eqb_eq]|].
  split.
  - unfold shown_by. destruct (get_exposed c) as [[[|x0 [|x1 [|x2 [|x3 [|]]]]] [y|]]|]; try discriminate A5.
    apply andb_prop in A5 as [A5 B4]. apply andb_prop in A5 as [A5 B3]. apply andb_prop in A5 as [B1 B2]. apply Z.eqb_eq in B1, B2, B3, B4. congruence.
  - destruct (get_during_turn_filter_idx (1024 * k)) as [i|]; [|discriminate A6]. apply Z.eqb_eq in A6. congruence.
Qed.
Lemma ankan_info k : 0 <= k < 34 -> from_ankan_info k = Ok (raw_naki (1024 * k)).
Proof. intros _. unfold from_ankan_info. rewrite Z.shiftl_mul_pow2 by lia. change (2 ^ 8) with 256. replace (k * 4 * 256) with (1024 * k) by lia. reflexivity. Qed.
Definition added_chk : bool := forallb (fun k => match from_kakan_info k 0 with
  | Ok nk => okind_eqb (spec_kind (nk_code nk)) (Some Kakan) && (from_who (nk_code nk) =? 0) && (nk_conv nk =? nk_code nk) && match get_during_turn_filter_idx (nk_code nk) with Ok i => i =? 37 + k | Err _ => false end
  | Err _ => false end) (zrange 34).
Lemma added_chk_ok : added_chk = true.
Proof. vm_compute. reflexivity. Qed.
Lemma added_facts k nk : 0 <= k < 34 -> from_kakan_info k 0 = Ok nk -> spec_kind (nk_code nk) = Some Kakan /\ from_who (nk_code nk) = 0 /\ nk_conv nk = nk_code nk /\
  get_during_turn_filter_idx (nk_code nk) = Ok (37 + k).
Proof.
  intros Hk E. pose proof added_chk_ok as A. unfold added_chk in A. rewrite forallb_forall in A. specialize (A k (in_zrange k 34 Hk)). rewrite E in A.
  apply andb_prop in A as [A A4]. apply andb_prop in A as [A A3]. apply andb_prop in A as [A1 A2]. apply Z.eqb_eq in A2, A3.
  split; [destruct (spec_kind (nk_code nk)) as [[]|]; try discriminate A1; reflexivity|]. split; [exact A2|]. split; [exact A3|].
  destruct (get_during_turn_filter_idx (nk_code nk)) as [i|]; [|discriminate A4]. apply Z.eqb_eq in A4. congruence.
Qed.

(** ** Invariant *)
Definition kan_of_call (pls : list play) (p : Z) (d : decision) : Prop := match d with
  | NakiDecision q nk e => nk_conv nk = nk_code nk /\ exists k, 0 <= k < 34 /\
      (nk_code nk = 1024 * k /\ (e = true -> exists c nkc, In (PlCall p c) pls /\ mk_naki c = Ok nkc /\ (exists x, get_exposed c = Ok x) /\ nk_conv nkc = 1024 * k) \/
       spec_kind (nk_code nk) = Some Kakan /\ from_who (nk_code nk) = 0 /\ get_during_turn_filter_idx (nk_code nk) = Ok (37 + k) /\ e = false)
  | _ => False end.
Definition fine_half {S} (pls : list play) (h : halfturn S) : Prop := match h with DuringTurn p _ ds _ => exists ag re nl, ds = [ag; re; nl] /\ Forall (kan_of_call pls p) nl | _ => True end.
Definition kan_marked {S} (w k : Z) (h : halfturn S) : Prop := match h with
  | DuringTurn p _ ds _ => p = w /\ exists q nk, In (NakiDecision q nk true) (nth 2 ds []) /\ get_during_turn_filter_idx (nk_code nk) = Ok (3 + k)
  | _ => False end.
Definition kans_marked (pls : list play) (hs : list (halfturn sobj)) : Prop :=
  forall w k c, In (PlCall w c) pls -> 0 <= k < 34 -> closed_kan_code k c -> Exists (kan_marked w k) hs.
Definition kans_open (s : rstate) : Prop := s_cur s = true -> match s_half s with
  | DuringTurn p _ ds _ :: _ => 0 <= p < 4 /\ forall k, 0 <= k < 34 -> vget (row (s_ht s) (Z.to_nat p)) (Z.to_nat k) = 4 -> In (NakiDecision p (raw_naki (1024 * k)) false) (nth 2 ds [])
  | _ => True end.

Lemma kan_of_call_app pls a p d : kan_of_call pls p d -> kan_of_call (pls ++ [a]) p d.
Proof.
  destruct d; [|exact (fun x => x)..]. cbn. intros (R & k & Hk & [(A & B)|B]); (split; [exact R|]); exists k; (split; [exact Hk|]); [left|right; exact B].
  split; [exact A|]. intros X. destruct (B X) as (c & nkc & Ic & R1). exists c, nkc. split; [apply in_app_iff; now left|exact R1].
Qed.
Lemma fine_app {S} pls a (h : halfturn S) : fine_half pls h -> fine_half (pls ++ [a]) h.
Proof.
  destruct h; [|exact (fun x => x)..]. cbn. intros (ag & re & nl & -> & F). exists ag, re, nl. split; [reflexivity|]. eapply Forall_impl; [|exact F]. intros d. apply kan_of_call_app.
Qed.
Lemma marked_stays cv q nk l : In (NakiDecision q nk true) l -> In (NakiDecision q nk true) (exec_match cv l).
Proof.
  induction l as [|d l IH]; [intros []|]. cbn [exec_match]. intros [->|I].
  - cbn [matches]. destruct (nk_conv nk =? cv); now left.
  - destruct (matches cv d); [now right|]. right. exact (IH I).
Qed.
Lemma kan_marked_during w k cv (hs : list (halfturn sobj)) : Exists (kan_marked w k) hs -> Exists (kan_marked w k) (upd_during (fun ds => upd ds DECISION_NAKI_IDX (exec_match cv)) hs).
Proof.
  intros E. destruct hs as [|h hs]; [exact E|]. destruct h as [p so ds i| |]; cbn [upd_during]; try exact E. apply Exists_cons in E as [E|E]; [|now apply Exists_cons_tl]. apply Exists_cons_hd.
  destruct E as (-> & q & nk & I & G). split; [reflexivity|]. exists q, nk. split; [|exact G]. unfold DECISION_NAKI_IDX.
  destruct ds as [|d0 [|d1 [|d2 r]]]; cbn [upd nth] in *; try exact I. now apply marked_stays.
Qed.
Lemma kan_marked_reach w k f (hs : list (halfturn sobj)) : Exists (kan_marked w k) hs -> Exists (kan_marked w k) (upd_during (fun ds => upd ds DECISION_REACH_IDX f) hs).
Proof.
  intros E. destruct hs as [|h hs]; [exact E|]. destruct h as [p so ds i| |]; cbn [upd_during]; try exact E. apply Exists_cons in E as [E|E]; [|now apply Exists_cons_tl]. apply Exists_cons_hd.
  destruct E as (-> & q & nk & I & G). split; [reflexivity|]. exists q, nk. split; [|exact G]. unfold DECISION_REACH_IDX.
  destruct ds as [|d0 [|d1 [|d2 r]]]; cbn [upd nth] in *; exact I.
Qed.
Lemma kan_marked_post w k f (hs : list (halfturn sobj)) : Exists (kan_marked w k) hs -> Exists (kan_marked w k) (upd_post f hs).
Proof.
  intros E. destruct hs as [|h hs]; [exact E|]. destruct h as [| |p so ds i]; cbn [upd_post]; try exact E. apply Exists_cons in E as [E|E]; [destruct E|now apply Exists_cons_tl].
Qed.
Lemma fine_post pls f (hs : list (halfturn sobj)) : Forall (fine_half pls) hs -> Forall (fine_half pls) (upd_post f hs).
Proof. intros F. destruct F as [|h l H F]; [constructor|]. destruct h; cbn [upd_post]; constructor; assumption. Qed.

Lemma codes_app pls a : kan_codes_ok (pls ++ [a]) -> kan_codes_ok pls.
Proof. intros H w c I. apply (H w c). apply in_app_iff. now left. Qed.
Lemma mark_fine pls w c nkc p (so : sobj) ag re nl i : mk_naki c = Ok nkc -> (exists x, get_exposed c = Ok x) -> kan_codes_ok (pls ++ [PlCall w c]) -> p = w ->
  Forall (kan_of_call pls p) nl -> fine_half (pls ++ [PlCall w c]) (DuringTurn p so [ag; re; exec_match (nk_conv nkc) nl] i).
Proof.
  intros En [[ex a] Ee] Hc -> F. cbn [fine_half]. exists ag, re, (exec_match (nk_conv nkc) nl). split; [reflexivity|].
  induction F as [|d l D F IH]; cbn [exec_match]; [constructor|]. destruct (matches (nk_conv nkc) d) eqn:M; constructor; [|eapply Forall_impl; [|exact F]; intros x; apply kan_of_call_app|now apply kan_of_call_app|exact IH].
  destruct d as [q nk e|q e|q e]; try discriminate M. cbn [matches set_executed kan_of_call] in *. apply Z.eqb_eq in M. destruct D as (R & k & Hk & D). split; [exact R|]. exists k. split; [exact Hk|].
  destruct D as [(D1 & D2)|(D1 & D2 & D3 & D4)].
  - left. split; [exact D1|]. intros _. exists c, nkc. split; [apply in_app_iff; right; now left|]. split; [exact En|]. split; [exists (ex, a); exact Ee|]. rewrite <- M, R. exact D1.
  - exfalso. destruct (normalise c nkc ex a En Ee) as (_ & Sk & Fw & _). rewrite <- M, R in Sk, Fw. rewrite D1 in Sk. rewrite D2 in Fw.
    apply (proj2 (Hc w c ltac:(apply in_app_iff; right; now left)) (eq_sym Sk)). symmetry. exact Fw.
Qed.

Lemma four_held p h hl k : holds h hl -> 0 <= k < 34 -> exposable p h [4 * k; 4 * k + 1; 4 * k + 2; 4 * k + 3] -> num (Z.to_nat k) hl = 4.
Proof.
  intros H Hk E. destruct (holds_expose p _ h hl H E) as (hl' & P & _). pose proof H as (_ & Nd & Fh & _).
  pose proof (num_bound (Z.to_nat k) hl ltac:(lia) Nd Fh) as B. unfold class_size in B. replace (Nat.ltb (Z.to_nat k) 34) with true in B by (symmetry; apply Nat.ltb_lt; lia).
  rewrite (num_perm _ _ _ P), num_app in *. pose proof (num_nonneg (Z.to_nat k) hl').
  assert (Q : num (Z.to_nat k) (map tid [4 * k; 4 * k + 1; 4 * k + 2; 4 * k + 3]) = 4).
  { clear - Hk. assert (A : forallb (fun k => num (Z.to_nat k) (map tid [4 * k; 4 * k + 1; 4 * k + 2; 4 * k + 3]) =? 4) (zrange 34) = true) by (vm_compute; reflexivity).
    rewrite forallb_forall in A. apply Z.eqb_eq. exact (A k (in_zrange k 34 Hk)). }
  lia.
Qed.

Lemma kans_hold L go e0 evs n s pls : runs L go e0 evs n s pls -> consistent pls -> kan_codes_ok pls ->
  Forall (fine_half pls) (s_half s) /\ kans_marked pls (s_half s) /\ kans_open s.
Proof.
  revert evs s. revert pls. refine (fun pls evs s => runs_ind L go e0 n (fun pls s => consistent pls -> kan_codes_ok pls -> Forall (fine_half pls) (s_half s) /\ kans_marked pls (s_half s) /\ kans_open s) _ _ pls evs s).
  - intros s0 In0 _ _ _. destruct (in_rest _ _ In0) as (_ & _ & _ & _ & _ & _ & H1 & _ & _ & _ & H2 & _). unfold kans_open. rewrite H1, H2. split; [constructor|]. split; [intros w k c []|discriminate].
  - clear pls evs s. intros evs evs' h a s s' R R' IH W S G E Es Cn Kc.
    specialize (IH (consistent_app _ _ Cn) (codes_app _ _ Kc)). destruct IH as (I1 & I2 & I3).
    assert (I1' : Forall (fine_half (h ++ [a])) (s_half s)) by (eapply Forall_impl; [|exact I1]; intros x; apply fine_app).
    pose proof (lab_inv_holds _ _ _ _ _ _ _ R) as [_ Lb]. pose proof (astep_cur _ _ _ _ _ W S E) as Cu.
    assert (Old : (forall w c, a <> PlCall w c) -> kans_marked (h ++ [a]) (s_half s)).
    { intros Na w k c I Hk Hc. apply in_app_iff in I as [I|[I|[]]]; [exact (I2 w k c I Hk Hc)|]. destruct (Na w c I). }
    destruct a as [w t|w t|w c|w|w|t].
    + cbn [seated astep] in S, E.
      destruct (hands_exact _ _ _ _ _ _ _ w R' S) as (hl & _ & _ & _ & _ & Hc & _).
      destruct (melds_inv_holds _ _ _ _ _ _ _ R' w S) as [_ Gm].
      destruct (draw_lists _ _ _ _ _ _ W S E Es) as (so & ag & re & ank & kak & i & r & Eh & Ha & Hk).
      assert (Er : r = s_half s).
      { pose proof (astep_labels L n s (PlDraw w t) s' W S E) as X. destruct X as (so' & ag' & re' & nl' & b' & X & _). rewrite X in Eh. injection Eh. intros; subst; reflexivity. }
      subst r. clear E.
      assert (Hc' : forall j, (j < 37)%nat -> vget (row (s_ht s') (Z.to_nat w)) j <= class_size j) by (intros j Hj; destruct (Hc j Hj) as [Hv Hb]; unfold vec in Hv; rewrite Hv; exact (proj2 Hb)).
      pose proof (closed_kan_members _ _ _ (proj1 S) Hc' Ha) as A. pose proof (added_kan_members _ _ _ _ (proj1 S) Gm Hk) as B.
      rewrite Eh. split; [|split].
      * constructor; [|exact I1']. exists ag, re, (ank ++ kak). split; [reflexivity|]. apply Forall_forall. intros d Hd. apply in_app_iff in Hd as [Hd|Hd].
        -- apply A in Hd as (k & nk & Hk0 & _ & Ef & ->). rewrite ankan_info in Ef by exact Hk0. apply Ok_inj in Ef. subst nk. cbn [kan_of_call]. split; [reflexivity|]. exists k. split; [exact Hk0|]. left. split; [reflexivity|discriminate].
        -- apply B in Hd as (m & k & nk & _ & _ & Hk0 & _ & _ & Ef & ->). destruct (added_facts k nk Hk0 Ef) as (F1 & F2 & F3 & F4). cbn [kan_of_call]. split; [exact F3|]. exists k. split; [exact Hk0|]. right. auto.
      * intros w' k c I Hk0 Hc0. apply Exists_cons_tl. exact (Old ltac:(discriminate) w' k c I Hk0 Hc0).
      * unfold kans_open. rewrite Eh. intros _. split; [exact S|]. intros k Hk0 V. cbn [nth]. apply in_app_iff. left. apply A. exists k, (raw_naki (1024 * k)). rewrite ankan_info by exact Hk0. auto.
    + pose proof (astep_labels _ _ _ _ _ W S E) as Eh. destruct Eh as (so & ds & Eh & _). unfold kans_open. rewrite Eh. split; [|split; [|intros _; exact I]].
      * constructor; [exact I|]. constructor; [exact I|exact I1'].
      * intros w' k c Ic Hk0 Hc0. apply Exists_cons_tl, Exists_cons_tl. exact (Old ltac:(discriminate) w' k c Ic Hk0 Hc0).
    + pose proof (astep_labels _ _ _ _ _ W S E) as Eh. destruct Eh as (nk & hs & En & Ehs & E1). destruct Cu as [Cu Cu']. specialize (Lb Cu). specialize (I3 Cu).
      destruct G as (Hw & _ & Gx & Gc & _ & Gy).
      assert (B : Forall (fine_half (h ++ [PlCall w c])) hs /\ kans_marked (h ++ [PlCall w c]) hs).
      { rewrite Ehs. destruct (is_ankan c || is_kakan c) eqn:Hk.
        - unfold cur_during in Gc. apply andb_prop in Gc as [_ Gc]. destruct (s_half s) as [|x r] eqn:Es0; [discriminate Gc|]. destruct x as [p so ds i| |]; try discriminate Gc.
          destruct Lb as [(ag & re & nl & -> & Fr) Hp]. cbn [half_player] in Hp. specialize (Hp (consistent_app _ _ Cn)).
          assert (Ep : p = w).
          { unfold consistent in Cn. apply in_turn_app in Cn as [_ Cn]. cbn [in_turn] in Cn. rewrite Hk in Cn. destruct Cn as [Cn _]. rewrite <- Hp in Cn. symmetry. exact Cn. }
          inversion I1 as [|x' r' Q0 I1r]; subst x' r'. cbn [fine_half] in Q0. destruct Q0 as (ag' & re' & nl' & Q1 & Q2). injection Q1 as <- <- <-. inversion I1' as [|x' r' _ I1r']; subst x' r'.
          split.
          + cbn [upd_during]. unfold DECISION_NAKI_IDX. cbn [upd]. constructor; [|exact I1r']. now apply mark_fine.
          + intros w' k c' Ic Hk0 Hc0. apply in_app_iff in Ic as [Ic|[Ic|[]]]; [apply kan_marked_during; exact (I2 w' k c' Ic Hk0 Hc0)|].
            assert (Q : PlCall w c = PlCall w' c') by exact Ic. injection Q as <- <-. clear Ic Hp. subst p.
            destruct (closed_facts k c Hk0 Hc0) as (_ & _ & _ & (nk' & N1 & N2) & Sh & Ix). rewrite En in N1. apply Ok_inj in N1. subst nk'. rewrite Sh in Gy.
            destruct (hand_inv_holds _ _ _ _ _ _ _ R (Z.to_nat w) ltac:(lia)) as (hl & Hh & _ & Hv).
            pose proof (four_held _ _ _ _ Hh Hk0 Gy) as N4. destruct (Hv (Z.to_nat k) ltac:(lia)) as [V _]. rewrite N4 in V. destruct I3 as [_ I3]. specialize (I3 k Hk0 V). cbn [nth] in I3.
            cbn [upd_during]. unfold DECISION_NAKI_IDX. cbn [upd]. apply Exists_cons_hd. cbn [kan_marked nth]. split; [reflexivity|].
            destruct (exec_match_cases (nk_conv nk) nl) as [(l1 & d & l2 & El & -> & M)|[_ N]].
            * rewrite Forall_forall in Fr. destruct (Fr d) as (nkd & -> & Rd); [rewrite El; apply in_app_iff; right; now left|]. cbn [matches] in M. apply Z.eqb_eq in M. exists w, nkd.
              split; [apply in_app_iff; right; now left|]. rewrite <- Rd, M, N2. exact Ix.
            * exfalso. rewrite Forall_forall in N. specialize (N _ I3). cbn [matches raw_naki nk_conv] in N. rewrite N2 in N. rewrite Z.eqb_refl in N. discriminate N.
        - split; [apply fine_post; exact I1'|]. intros w' k c' Ic Hk0 Hc0. apply in_app_iff in Ic as [Ic|[Ic|[]]]; [apply kan_marked_post; exact (I2 w' k c' Ic Hk0 Hc0)|].
          exfalso. assert (Q : PlCall w c = PlCall w' c') by exact Ic. injection Q as <- <-. destruct (closed_facts k c Hk0 Hc0) as (A & _). rewrite A in Hk. discriminate Hk. }
      destruct B as [B1 B2]. unfold kans_open. rewrite Cu'. destruct (is_kakan c).
      * destruct E1 as (so1 & ds & Eh & _). rewrite Eh. split; [constructor; [exact I|exact B1]|]. split; [|discriminate]. intros w' k c' Ic Hk0 Hc0. apply Exists_cons_tl. exact (B2 w' k c' Ic Hk0 Hc0).
      * rewrite E1. split; [exact B1|]. split; [exact B2|discriminate].
    + pose proof (astep_labels _ _ _ _ _ W S E) as Eh. cbn beta iota in Eh. destruct Cu as [Cu _]. specialize (I3 Cu).
      assert (Ht : s_ht s' = s_ht s).
      { apply strip_fields in Es as (_ & G2 & _). rewrite G2. apply ap_ht. }
      unfold kans_open. rewrite Eh, Ht. split; [|split].
      * destruct (s_half s) as [|x r]; [constructor|]. inversion I1' as [|x' r' Q1 Q2]; subst x' r'. destruct x; cbn [upd_during]; constructor; try assumption. destruct Q1 as (ag & re & nl & -> & F). unfold DECISION_REACH_IDX. cbn [upd fine_half]. exists ag, (exec_first re), nl. auto.
      * intros w' k c Ic Hk0 Hc0. apply kan_marked_reach. exact (Old ltac:(discriminate) w' k c Ic Hk0 Hc0).
      * intros _. destruct (s_half s) as [|x r]; [exact I|]. destruct x as [p so ds i| |]; cbn [upd_during]; try exact I3. destruct I3 as [Q1 Q2]. split; [exact Q1|]. intros k Hk0 V. specialize (Q2 k Hk0 V). unfold DECISION_REACH_IDX.
        destruct ds as [|d0 [|d1 [|d2 l]]]; cbn [upd nth] in *; exact Q2.
    + pose proof (astep_labels _ _ _ _ _ W S E) as Eh. cbn beta iota in Eh. destruct Cu as [Cu _].
      assert (Ht : s_ht s' = s_ht s).
      { apply strip_fields in Es as (_ & G2 & _). rewrite G2. apply ap_ht. }
      specialize (I3 Cu). unfold kans_open. rewrite Eh, Ht. split; [exact I1'|]. split; [exact (Old ltac:(discriminate))|intros _; exact I3].
    + pose proof (astep_labels _ _ _ _ _ W S E) as Eh. cbn beta iota in Eh.
      assert (Ht : s_ht s' = s_ht s).
      { apply strip_fields in Es as (_ & G2 & _). rewrite G2. apply ap_ht. }
      unfold kans_open in *. rewrite Eh, Ht, Cu. split; [exact I1'|]. split; [exact (Old ltac:(discriminate))|exact I3].
Qed.

(** ** Samples *)
Lemma one_mark l a b : (nmarked l <= 1)%nat -> In a l -> In b l -> d_executed a = true -> d_executed b = true -> a = b.
Proof.
  unfold nmarked. intros N A B Xa Xb. assert (Ia : In a (filter d_executed l)) by now apply filter_In. assert (Ib : In b (filter d_executed l)) by now apply filter_In.
  destruct (filter d_executed l) as [|x [|y r]]; [destruct Ia| |cbn in N; lia]. destruct Ia as [<-|[]], Ib as [<-|[]]. reflexivity.
Qed.
Lemma code_1024 k k' : 1024 * k = 1024 * k' -> k = k'.
Proof. lia. Qed.

Lemma forall2_in_l {A B} (R : A -> B -> Prop) l r : Forall2 R l r -> forall x, In x l -> exists y, In y r /\ R x y.
Proof. induction 1 as [|x y l r H _ IH]; intros z []; [subst; exists y; split; [now left|exact H]|]. destruct (IH z) as (y' & I & J); [assumption|]. exists y'. split; [now right|exact J]. Qed.
Lemma own_targets L go e0 rest half tokens pls a t : process_round L go (e0 :: rest) = Ok (half, tokens) -> plays_of_round (e0 :: rest) pls -> consistent pls -> kan_codes_ok pls ->
  build_tensors a half tokens = Ok t ->
  Forall (fun r => r_label r = 2 \/ exists k c, 0 <= k < 34 /\ r_label r = 3 + k /\ In (PlCall (r_player r) c) pls /\ closed_kan_code k c) (t_during t) /\
  forall w k c, In (PlCall w c) pls -> 0 <= k < 34 -> closed_kan_code k c -> Exists (fun r => r_player r = w /\ r_label r = 3 + k) (t_during t).
Proof.
  intros H P Cn Kc B. destruct (formed_rounds _ _ _ _ _ H) as [W X]. destruct (build_ok _ _ _ _ B W X) as (D & _).
  destruct (round_runs _ _ _ _ _ _ _ H P) as (plays & n & s & R & Eh & _ & _).
  destruct (kans_hold _ _ _ _ _ _ _ R Cn Kc) as (F & M & _). pose proof (C37_always _ _ _ _ _ _ _ R) as Lb.
  assert (Fh : Forall (fine_half pls) half) by (rewrite Eh; apply Forall_map, Forall_rev; eapply Forall_impl; [|exact F]; intros h; destruct h; exact (fun x => x)).
  split.
  - assert (Fo : Forall (fine_half pls) (own_turns half)) by (apply Forall_forall; intros h Hh; apply filter_In in Hh as [Hh _]; rewrite Forall_forall in Fh; exact (Fh h Hh)).
    clear - D Fo Kc. induction D as [|h r l l' (p & v & ds & i & -> & _ & _ & _ & Rp & _ & T) D IH]; [constructor|]. inversion Fo as [|? ? Q Ql]; subst. constructor; [|exact (IH Ql)]. clear IH Ql Fo D.
    destruct Q as (ag & re & nl & -> & Fn). cbn [nth] in T. destruct T as [(d & D1 & D2 & D3)|(_ & ->)]; [right|now left].
    rewrite Forall_forall in Fn. specialize (Fn d D1). destruct d as [q nk e|q e|q e]; cbn [kan_of_call d_executed during_action] in *; try contradiction Fn. destruct Fn as (Rn & k & Hk & [(K1 & K2)|(_ & _ & _ & K)]); [|congruence].
    destruct (K2 D2) as (c & nkc & Ic & Nc & (x & Ex) & Ec). exists k, c. split; [exact Hk|].
    assert (Hc : closed_kan_code k (1024 * k)) by (exists 0; split; [lia|ring]). destruct (closed_facts k _ Hk Hc) as (_ & _ & Sk & _ & _ & Ix).
    split; [rewrite K1, Ix in D3; now apply Ok_inj in D3|]. split; [exact Ic|]. destruct x as [ex ac]. destruct (normalise c nkc ex ac Nc Ex) as (_ & Sc & _). rewrite Ec, Sk in Sc.
    destruct (proj1 (Kc _ c Ic) (eq_sym Sc)) as (k' & Hk' & Hc'). destruct (closed_facts k' c Hk' Hc') as (_ & _ & _ & (nk' & N1 & N2) & _). rewrite Nc in N1. apply Ok_inj in N1. subst nk'.
    rewrite Ec in N2. apply code_1024 in N2. subst k'. exact Hc'.
  - intros w k c Ic Hk Hc. specialize (M w k c Ic Hk Hc). apply Exists_exists in M as (h & Ih & Mh). destruct h as [p so ds i| |]; [|destruct Mh..]. destruct Mh as (-> & q & nk & In2 & Ix).
    rewrite Forall_forall in Lb. specialize (Lb _ Ih). cbn [labels_ok] in Lb. destruct Lb as (wins & ri & cl & -> & _ & _ & N1 & _). cbn [nth] in In2.
    assert (Ho : In (DuringTurn w (observe s so) [wins; ri; cl] i) (own_turns half)).
    { apply filter_In. split.
      - rewrite Eh. apply in_map_iff. exists (DuringTurn w so [wins; ri; cl] i). split; [reflexivity|]. now apply -> in_rev.
      - unfold some_decision. destruct cl as [|x cl]; [destruct In2|]. cbn. rewrite !orb_true_r. reflexivity. }
    destruct (forall2_in_l _ _ _ D _ Ho) as (r & Ir & (p & v & ds & j & E & _ & _ & _ & Rp & _ & T)). injection E as <- <- <- <-. cbn [nth] in T.
    apply Exists_exists. exists r. split; [exact Ir|]. split; [exact Rp|]. destruct T as [(d & D1 & D2 & D3)|(N & _)].
    + pose proof (one_mark cl d _ N1 D1 In2 D2 eq_refl) as ->. cbn [during_action] in D3. rewrite Ix in D3. now apply Ok_inj in D3.
    + exfalso. rewrite Forall_forall in N. specialize (N _ In2). discriminate N.
Qed.

(** A player has a sample whose target is the closed kan of type [k] exactly if the
    player declares one. *)
Theorem C130_closed_partial : forall L go e0 rest half tokens pls a t, process_round L go (e0 :: rest) = Ok (half, tokens) -> plays_of_round (e0 :: rest) pls ->
  consistent pls -> kan_codes_ok pls -> build_tensors a half tokens = Ok t ->
  forall w k, 0 <= k < 34 ->
  (Exists (fun r => r_player r = w /\ r_label r = 3 + k) (t_during t) <-> exists c, In (PlCall w c) pls /\ closed_kan_code k c).
Proof.
  intros L go e0 rest half tokens pls a t H P Cn Kc B w k Hk. destruct (own_targets _ _ _ _ _ _ _ _ _ H P Cn Kc B) as [F G]. split.
  - intros E. apply Exists_exists in E as (r & Ir & <- & Lr). rewrite Forall_forall in F. destruct (F r Ir) as [L2|(k' & c & Hk' & Lk & Ic & Hc)]; [lia|]. replace k' with k in * by lia. exists c. auto.
  - intros (c & Ic & Hc). exact (G w k c Ic Hk Hc).
Qed.
Print Assumptions C130_closed_partial.

(** Added kans are never targets: the target of an own turn is riichi or a closed kan. *)
Theorem C130_targets_partial : forall L go e0 rest half tokens pls a t, process_round L go (e0 :: rest) = Ok (half, tokens) -> plays_of_round (e0 :: rest) pls ->
  consistent pls -> kan_codes_ok pls -> build_tensors a half tokens = Ok t ->
  Forall (fun r => 2 <= r_label r <= 36) (t_during t).
Proof.
  intros L go e0 rest half tokens pls a t H P Cn Kc B. destruct (own_targets _ _ _ _ _ _ _ _ _ H P Cn Kc B) as [F _]. eapply Forall_impl; [|exact F]. intros r [->|(k & c & Hk & -> & _)]; lia.
Qed.
Print Assumptions C130_targets_partial.

(** The round of RoundExamples.v, in which player 1 claims East twice, with tile number 27
    in the hand of player 1: the added kan of East (type 27) is offered and declared. *)
Definition added_init : event :=
  MkEvent "INIT" [("seed","0,0,1,2,3,132"); ("ten","250,240,250,250"); ("oya","0"); ("hai0","0,1,2,16,20,24,36,40,44,110,112,116,120"); ("hai1","108,109,27,41,45,49,53,57,61,65,69,73,77");
    ("hai2","72,76,80,84,88,92,96,100,104,4,8,12,113"); ("hai3","5,9,13,17,21,25,29,33,38,42,46,50,54")]%string.
Definition added_events : list event := removelast (tl small_round).
Definition added_round : list event := added_init :: added_events ++ [MkEvent "RYUUKYOKU" [("sc","0,0,0,0")]]%string.
Definition added_plays : list play := [PlDraw 0 3; PlCall 0 768; PlDora 52; PlDraw 0 124; PlDiscard 0 110; PlCall 1 42603; PlDiscard 1 77; PlDraw 2 117; PlReach1 2; PlDiscard 2 117;
    PlReach2 2; PlDraw 3 125; PlDiscard 3 125; PlDraw 0 126; PlDiscard 0 126; PlDraw 1 111; PlCall 1 42611; PlDraw 1 121; PlDora 133; PlDiscard 1 121; PlDraw 2 118; PlDiscard 2 118].
Lemma added_round_plays : plays_of_round added_round added_plays.
Proof. exact (plays_check added_init added_events [MkEvent "RYUUKYOKU" [("sc","0,0,0,0")]]%string eq_refl eq_refl eq_refl). Qed.
Lemma added_consistent : consistent added_plays.
Proof. unfold consistent, added_plays. cbn [in_turn]. repeat split; (vm_compute; reflexivity) || (vm_compute; discriminate). Qed.
Lemma added_codes : kan_codes_ok added_plays.
Proof.
  intros w c I. unfold added_plays in I. cbn [In] in I. repeat (destruct I as [I|I]; [try discriminate I|]); [..|destruct I]; injection I as <- <-.
  - split; [|vm_compute; discriminate]. intros _. exists 0. split; [lia|]. exists 3. split; [lia|reflexivity].
  - split; vm_compute; discriminate.
  - split; vm_compute; discriminate.
Qed.

(** C130 is false: the kan is allowed and declared, and not the target. *)
Theorem C130_refuted : exists L go e0 rest half tokens pls a t r w c i,
  process_round L go (e0 :: rest) = Ok (half, tokens) /\ plays_of_round (e0 :: rest) pls /\ consistent pls /\ kan_codes_ok pls /\ build_tensors a half tokens = Ok t /\
  In (PlCall w c) pls /\ spec_kind c = Some Kakan /\ get_during_turn_filter_idx c = Ok i /\
  In r (t_during t) /\ r_player r = w /\ allowed_by r i /\ Forall (fun r => r_label r <> i) (t_during t).
Proof.
  destruct (sample_round_ok ex_libs TF added_round (fun h tk t => existsb (fun r => (r_player r =? 1) && (nth 64 (r_mask r) 0 =? 1)) (t_during t))) as (h & tk & t & H1 & H2 & H3);
    [vm_compute; reflexivity|]. apply existsb_exists in H3 as (r & Ir & H3). apply andb_prop in H3 as [R1 R2]. apply Z.eqb_eq in R1, R2.
  exists ex_libs, 169, added_init, (added_events ++ [MkEvent "RYUUKYOKU" [("sc","0,0,0,0")]]%string), h, tk, added_plays, TF, t, r, 1, 42611, 64.
  split; [exact H1|]. split; [exact added_round_plays|]. split; [exact added_consistent|]. split; [exact added_codes|]. split; [exact H2|]. split; [unfold added_plays; cbn [In]; tauto|].
  split; [vm_compute; reflexivity|]. split; [vm_compute; reflexivity|]. split; [exact Ir|]. split; [exact R1|]. split; [split; [lia|exact R2]|].
  eapply Forall_impl; [|exact (C130_targets_partial _ _ _ _ _ _ _ _ _ H1 added_round_plays added_consistent added_codes H2)]. intros r0. cbv beta. lia.
Qed.
Print Assumptions C130_refuted.

(** Non-vacuity of C130_closed_partial: in this round player 0 declares a closed kan of 1m. *)
Example C130_example : match sample_round ex_libs TF added_round with Some (_, _, t) => existsb (fun r => (r_player r =? 0) && (r_label r =? 3)) (t_during t) | None => false end = true.
Proof. vm_compute. reflexivity. Qed.
