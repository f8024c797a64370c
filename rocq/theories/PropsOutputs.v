(** C128: which outputs of the head for reactions can ever be allowed.
    [mask_of], [allowed_by]: SpecTensor.v; [offered]: SpecDecision.v. *)
From Coq Require Import ZArith List Bool String Ascii Lia PeanoNat Permutation.
From Verif Require Import Base Constants Naki Decision Tokens GameInfo Agari Process VecLemmas
  SpecMeld SpecTokens SpecRound SpecDecision SpecTurn SpecLabels NakiProofs NakiLemmas NakiCore NakiLemmas2 TokensLemmas DecisionProofs DecisionLemmas
  RoundLemmas RoundInv RoundTiles RoundInit RoundBook RoundFlags RoundSplit RoundHalf RoundFacts RoundQuery RoundCount RoundLabels RoundMelds AgariLemmas TurnFacts
  Tensor SpecTensor TensorLemmas TensorRound PropsTensor RoundExamples.
Import ListNotations.
Open Scope Z_scope.

(** The numbers that are never offered: eight that no call has, those of a chi that takes
    the middle tile and shows a red five as its last, and those of a pon whose claimed
    tile is a particular copy of a five. *)
Definition silent : list Z := [65; 66; 67; 69; 70; 73; 75; 76; 79; 81; 82; 110; 111; 112].

(** ** The calls offered after a discard *)
Definition q_loud (t : Z) (r : bool) (v : view) (nk : naki) : bool :=
  match get_post_turn_filter_idx (nk_code nk) with Ok i => (2 <=? i) && (i <=? 153) && negb (existsb (Z.eqb i) silent) | Err _ => false end.
Lemma q_loud_all : all_cases (each q_loud) = true.
Proof. vm_cast_no_check (eq_refl true). Qed.
Lemma in_silent i : existsb (Z.eqb i) silent = false <-> ~ In i silent.
Proof.
  split.
  - intros E I. assert (X : existsb (Z.eqb i) silent = true) by (apply existsb_exists; exists i; split; [exact I|apply Z.eqb_refl]). congruence.
  - intros N. destruct (existsb (Z.eqb i) silent) eqn:X; [|reflexivity]. apply existsb_exists in X as (j & J1 & J2). apply Z.eqb_eq in J2. subst. contradiction.
Qed.
Lemma mask_loud player hands t r ds q d : List.length hands = 4%nat -> 0 <= player < 4 -> 0 <= t < 34 -> 0 <= q < 4 ->
  decision_mask player hands t r = Ok ds -> In d (offered ds q) ->
  exists nk i, d = NakiDecision q nk false /\ get_post_turn_filter_idx (nk_code nk) = Ok i /\ 2 <= i <= 153 /\ ~ In i silent.
Proof.
  intros Hl Hp Ht Hq E Hin. destruct (each_offered _ q_loud_all player hands t r ds q _ Hl Hp Ht Hq E Hin) as (_ & nk & -> & Q).
  unfold q_loud in Q. destruct (get_post_turn_filter_idx (nk_code nk)) as [i|] eqn:G; [|discriminate Q]. exists nk, i. split; [reflexivity|]. split; [exact G|].
  apply andb_prop in Q as [Q Q3]. apply andb_prop in Q as [Q1 Q2]. apply Z.leb_le in Q1, Q2. split; [lia|]. apply in_silent. apply negb_true_iff. exact Q3.
Qed.

(** A hand for every number: [k] copies of every tile type, with or without red fives. *)
Definition even_hand (k red : Z) : list Z := repeat k 34 ++ repeat red 3.
Definition numbers (t : Z) (r : bool) (k red : Z) : list Z :=
  match decision_mask 0 [repeat 0 37; even_hand k red; repeat 0 37; repeat 0 37] t r with
  | Ok ds => flat_map (fun d => match d with NakiDecision 1 nk false => match get_post_turn_filter_idx (nk_code nk) with Ok i => [i] | _ => [] end | _ => [] end) (offered ds 1)
  | Err _ => []
  end.
Definition all_hands : list (Z * bool * Z * Z) :=
  flat_map (fun t => flat_map (fun r => flat_map (fun k => map (fun red => (t, r, k, red)) [0; 1]) [1; 2; 3]) [true; false]) (zrange 34).
Lemma numbers_all : forallb (fun i => negb ((2 <=? i) && negb (existsb (Z.eqb i) silent)) ||
  existsb (fun x => match x with (t, r, k, red) => (0 <=? t) && (t <? 34) && existsb (Z.eqb i) (numbers t r k red) end) all_hands) (zrange 154) = true.
Proof. vm_compute. reflexivity. Qed.
Lemma numbers_in t r k red i : In i (numbers t r k red) -> exists ds nk, decision_mask 0 [repeat 0 37; even_hand k red; repeat 0 37; repeat 0 37] t r = Ok ds /\
  In (NakiDecision 1 nk false) (offered ds 1) /\ get_post_turn_filter_idx (nk_code nk) = Ok i.
Proof.
  unfold numbers. destruct (decision_mask _ _ _ _) as [ds|]; [|intros []]. intros H. apply in_flat_map in H as (d & D & H).
  destruct d as [p nk e| |]; try destruct H. destruct p as [|[p|p|]|p]; try destruct H. destruct e; [destruct H|].
  destruct (get_post_turn_filter_idx (nk_code nk)) as [j|] eqn:G; [|destruct H]. destruct H as [->|[]]. exists ds, nk. auto.
Qed.

(** For some hands and some discard a call with number [i] is offered exactly if [i] is
    between 2 and 153 and none of the fourteen. *)
Theorem C128_offered_partial : forall i,
  (exists player hands t red ds q nk, List.length hands = 4%nat /\ 0 <= player < 4 /\ 0 <= t < 34 /\ 0 <= q < 4 /\
     decision_mask player hands t red = Ok ds /\ In (NakiDecision q nk false) (offered ds q) /\ get_post_turn_filter_idx (nk_code nk) = Ok i) <->
  2 <= i <= 153 /\ ~ In i silent.
Proof.
  intros i. split.
  - intros (player & hands & t & r & ds & q & nk & Hl & Hp & Ht & Hq & E & I & G). destruct (mask_loud _ _ _ _ _ _ _ Hl Hp Ht Hq E I) as (nk' & j & Ed & G' & B).
    injection Ed as <-. rewrite G in G'. injection G' as <-. exact B.
  - intros [B N]. pose proof numbers_all as A. rewrite forallb_forall in A. specialize (A i (in_zrange i 154 ltac:(lia))). apply in_silent in N. rewrite N in A.
    replace (2 <=? i) with true in A by (symmetry; apply Z.leb_le; lia). cbn [negb andb orb] in A. apply existsb_exists in A as ([[[t r] k] red] & _ & A).
    apply andb_prop in A as [A A3]. apply andb_prop in A as [A1 A2]. apply Z.leb_le in A1. apply Z.ltb_lt in A2. apply existsb_exists in A3 as (j & J & E). apply Z.eqb_eq in E. subst j.
    apply numbers_in in J as (ds & nk & J1 & J2 & J3). exists 0, [repeat 0 37; even_hand k red; repeat 0 37; repeat 0 37], t, r, ds, 1, nk.
    split; [reflexivity|]. split; [lia|]. split; [lia|]. split; [lia|]. auto.
Qed.
Print Assumptions C128_offered_partial.

(** ** Rounds *)
Definition loud (d : decision) : Prop := match d with NakiDecision _ nk _ => forall i, get_post_turn_filter_idx (nk_code nk) = Ok i -> ~ In i silent | _ => True end.
Definition loud_half {S} (h : halfturn S) : Prop := match h with PostTurn _ _ ds _ => Forall (Forall (Forall loud)) ds | _ => True end.
Lemma loud_marked cv l : Forall loud l -> Forall loud (exec_match cv l).
Proof.
  intros F. induction F as [|d l D F IH]; cbn [exec_match]; [constructor|]. destruct (matches cv d); constructor; try assumption. destruct d; exact D.
Qed.
Lemma loud_upd cv k ls : Forall (Forall loud) ls -> Forall (Forall loud) (upd ls k (exec_match cv)).
Proof.
  revert k. induction ls as [|l ls IH]; intros k F; destruct k as [|k]; cbn [upd]; try assumption; inversion F; subst; constructor; auto using loud_marked.
Qed.
Lemma loud_during (f : list (list decision) -> list (list decision)) (l : list (halfturn sobj)) : Forall loud_half l -> Forall loud_half (upd_during f l).
Proof. intros F. destruct F as [|h l H F]; [constructor|]. destruct h; cbn [upd_during]; constructor; assumption. Qed.
Lemma loud_post cv (l : list (halfturn sobj)) : Forall loud_half l -> Forall loud_half (upd_post (fun ds => map (fun l => upd l DECISION_NAKI_IDX (exec_match cv)) ds) l).
Proof.
  intros F. destruct F as [|h l H F]; [constructor|]. destruct h; cbn [upd_post]; constructor; try assumption. cbn [loud_half] in *. apply Forall_map. eapply Forall_impl; [|exact H]. intros ls. apply loud_upd.
Qed.
Lemma win_loud b q : Forall loud (win_if b q).
Proof. destruct b; repeat constructor. Qed.
Lemma loud_lists (ds : list (list (list decision))) : List.length ds = 4%nat ->
  (forall q, 0 <= q < 4 -> exists b nl, nth (Z.to_nat q) ds [] = [win_if b q; []; nl] /\ Forall loud nl) -> Forall (Forall (Forall loud)) ds.
Proof.
  intros Hl H. apply Forall_forall. intros d Hd. apply (In_nth _ _ []) in Hd as (k & Hk & <-).
  destruct (H (Z.of_nat k) ltac:(lia)) as (b & nl & E & F). rewrite Nat2Z.id in E. rewrite E. constructor; [apply win_loud|]. constructor; [constructor|]. constructor; [exact F|constructor].
Qed.
Lemma discard_loud L n s w t s' : wf s -> 0 <= w < 4 -> discard_step L n s (Z.to_nat w) t = Ok s' ->
  exists so ds, s_half s' = PostTurn w so ds (ntokens s) :: DiscardTurn w so t (ntokens s) :: s_half s /\ Forall (Forall (Forall loud)) ds.
Proof.
  intros W S H. destruct (ap_frame (PlDiscard w t) s) as (F1 & F2 & F3 & F4). assert (Ew : w = Z.of_nat (Z.to_nat w)) by lia.
  assert (Lh : List.length (s_ht (apply (PlDiscard w t) s)) = 4%nat) by (rewrite ap_ht, length_upd; apply W).
  apply discard_inv in H as (_ & so & acq & tok & rons & nakis & Eso & Ea & Et & Er & Em & _ & ->); [|lia|exact W].
  rewrite <- Ew in *. exists so. eexists. split.
  { revert F1. generalize (apply (PlDiscard w t) s). intros sa F1. rewrite <- F1. destruct sa; reflexivity. }
  apply loud_lists; [reflexivity|]. intros q Hq. rewrite dec_lists_nth by lia.
  pose proof (rons_shape _ _ _ _ _ _ _ _ _ _ _ _ _ (Z.to_nat q) ltac:(lia) Er) as Rs. rewrite Z2Nat.id in Rs by lia.
  eexists (match nth (Z.to_nat q) rons None with Some _ => true | None => false end), _.
  split; [destruct Rs as [-> | ->]; reflexivity|].
  destruct (Nat.eqb (Z.to_nat q) (Z.to_nat w)); [constructor|].
  change (nth (Z.to_nat q) nakis []) with (offered nakis q). apply Forall_forall. intros d Hd.
  eapply mask_loud in Em; [|exact Lh|lia| |exact Hq|exact Hd].
  - destruct Em as (nk & i & -> & G & _ & N). cbn [loud]. intros j J. rewrite G in J. injection J as <-. exact N.
  - rewrite (proj1 (tix_hd t)). pose proof (tid_range t).
    assert (0 <= tid t / 4 < 34) by (split; [apply Z.div_pos; lia|apply Z.div_lt_upper_bound; lia]).
    rewrite Z2Nat.id by lia. assumption.
Qed.
Lemma loud_holds L go e0 evs n s pls : runs L go e0 evs n s pls -> Forall loud_half (s_half s).
Proof.
  revert evs s. revert pls. refine (fun pls evs s => runs_ind L go e0 n (fun _ s => Forall loud_half (s_half s)) _ _ pls evs s).
  - intros s0 In0 _. destruct (in_rest _ _ In0) as (_ & _ & _ & _ & _ & _ & _ & _ & _ & H1 & H2 & _). rewrite H2. constructor.
  - clear pls evs s. intros evs evs' h a s s' R R' I1 W S G E Es.
    destruct a as [w t|w t|w c|w|w|t].
    + cbn [seated astep] in S, E.
      destruct (hands_exact _ _ _ _ _ _ _ w R' S) as (hl & _ & _ & _ & _ & Hc & _).
      destruct (melds_inv_holds _ _ _ _ _ _ _ R' w S) as [_ Gm].
      destruct (draw_numbered _ _ _ _ _ _ W S E Es) as (ip & ds & Lip & Hd).
      { intros j Hj. destruct (Hc j Hj) as [Hv Hb]. unfold vec in Hv. rewrite Hv. exact (proj2 Hb). }
      { exact Gm. }
      cbv zeta in Hd. destruct Hd as (Eso & Eh & Pr). rewrite Eh. constructor; [exact I|exact I1].
    + cbn [seated astep] in S, E. destruct (discard_loud _ _ _ _ _ _ W S E) as (so & ds & Eh & F). rewrite Eh. constructor; [exact F|]. constructor; [exact I|exact I1].
    + apply astep_labels in E; [|assumption..]. destruct E as (nk & hs & En & Ehs & E1).
      assert (Fh : Forall loud_half hs) by (rewrite Ehs; destruct (is_ankan c || is_kakan c); [apply loud_during|apply loud_post]; exact I1).
      destruct (is_kakan c).
      * destruct E1 as (so1 & ds & Eh & Ld & Hd). rewrite Eh. constructor; [|exact Fh]. apply loud_lists; [exact Ld|]. intros q Hq. destruct (Hd q Hq) as (b & Eb). exists b, []. split; [exact Eb|constructor].
      * rewrite E1. exact Fh.
    + pose proof (astep_labels _ _ _ _ _ W S E) as Eh. cbn beta iota in Eh. rewrite Eh. apply loud_during. exact I1.
    + pose proof (astep_labels _ _ _ _ _ W S E) as Eh. cbn beta iota in Eh. rewrite Eh. exact I1.
    + pose proof (astep_labels _ _ _ _ _ W S E) as Eh. cbn beta iota in Eh. rewrite Eh. exact I1.
Qed.
Lemma loud_round L go evs half tokens : process_round L go evs = Ok (half, tokens) -> Forall loud_half half.
Proof.
  intros H. destruct (plays_exist _ _ _ _ _ H) as (e0 & rest & pls & -> & P). destruct (round_runs _ _ _ _ _ _ _ H P) as (plays & n & s & R & -> & _).
  apply Forall_map. apply Forall_rev. eapply Forall_impl; [|exact (loud_holds _ _ _ _ _ _ _ R)]. intros h. destruct h; exact (fun x => x).
Qed.

(** No sample of any round allows one of the fourteen outputs or has it as its label. *)
Theorem C128_never_partial : forall L go evs half tokens a t, process_round L go evs = Ok (half, tokens) -> build_tensors a half tokens = Ok t ->
  Forall (fun r => forall i, In i silent -> nth (Z.to_nat i) (r_mask r) 0 = 0 /\ r_label r <> i) (t_post t).
Proof.
  intros L go evs half tokens a t H B. destruct (formed_rounds _ _ _ _ _ H) as [W X]. pose proof (loud_round _ _ _ _ _ H) as Q.
  destruct (C44_post a half tokens t B W X) as (_ & rows & E & F). destruct (C45_labels a half tokens t B W X) as (rows' & E' & F').
  assert (M : forall i, In i silent -> Forall (fun r => nth (Z.to_nat i) (r_mask r) 0 = 0) (t_post t)).
  { intros i Hi. rewrite E. apply Forall_concat. clear E E' F'.
    assert (Qr : Forall loud_half (reactions half)) by (apply Forall_forall; intros h Hh; apply filter_In in Hh as [Hh _]; rewrite Forall_forall in Q; exact (Q h Hh)).
    clear Q H B W X. induction F as [|h rs l l' F1 F IH]; [constructor|]. inversion Qr as [|? ? Qh Ql]; subst. constructor; [|exact (IH Ql)].
    clear IH Ql Qr F. induction F1 as [|q r qs rs' M F1 IH]; constructor; [|exact IH]. destruct M as [_ M].
    assert (Bi : 65 <= i < 154) by (revert Hi; unfold silent; cbn [In]; lia). destruct (M i ltac:(lia)) as [[_ [P|(d & D1 & D2)]]|[P _]]; [lia| |exact P]. exfalso.
    destruct h as [| |p so ds k]; cbn [decisions_for] in D1; try destruct D1. cbn [loud_half] in Qh. apply in_concat in D1 as (l0 & L1 & L2).
    assert (Y : loud d).
    { destruct (nth_in_or_default (Z.to_nat q) ds []) as [Z1|Z1]; [|rewrite Z1 in L1; destruct L1]. rewrite Forall_forall in Qh. specialize (Qh _ Z1). rewrite Forall_forall in Qh. specialize (Qh _ L1). rewrite Forall_forall in Qh. exact (Qh _ L2). }
    destruct d as [pl nk e|pl e|pl e]; cbn [post_action loud] in D2, Y; [exact (Y i D2 Hi)|lia|lia]. }
  assert (Lb : Forall (fun r => allowed_by r (r_label r)) (t_post t)).
  { rewrite E'. apply Forall_concat. clear - F'. induction F' as [|h rs l l' F1 F IH]; constructor; [|exact IH]. induction F1 as [|q r qs rs' M F1 IH1]; constructor; [|exact IH1]. apply M. }
  apply Forall_forall. intros r Hr i Hi. specialize (M i Hi). rewrite Forall_forall in M, Lb. specialize (M r Hr). destruct (Lb r Hr) as [L0 L1]. split; [exact M|].
  intros Eq. rewrite Eq, M in L1. discriminate L1.
Qed.
Print Assumptions C128_never_partial.

(** So not every output can be the right one, also where the number names a call: 110 is a
    pon of red fives of the first suit. *)
Theorem C128_refuted : exists i c, 2 <= i <= 153 /\ in_range c /\ spec_kind c = Some Pon /\ get_post_turn_filter_idx c = Ok i /\
  forall L go evs half tokens a t, process_round L go evs = Ok (half, tokens) -> build_tensors a half tokens = Ok t ->
    Forall (fun r => nth (Z.to_nat i) (r_mask r) 0 = 0 /\ r_label r <> i) (t_post t).
Proof.
  exists 110, (512 * 14 + 40). split; [lia|]. split; [vm_compute; split; reflexivity|]. split; [vm_compute; reflexivity|]. split; [vm_compute; reflexivity|].
  intros L go evs half tokens a t H B. eapply Forall_impl; [|exact (C128_never_partial _ _ _ _ _ _ _ H B)]. intros r Hr. apply Hr. cbn. tauto.
Qed.
Print Assumptions C128_refuted.

(** Non-vacuity: a round with samples of reactions, in one of which a pon is allowed. *)
Example C128_example : match sample_round ex_libs TF small_round with
  | Some (h, tk, t) => Nat.leb 1 (List.length (t_post t)) && existsb (fun r => nth 113 (r_mask r) 0 =? 1) (t_post t)
  | None => false end = true.
Proof. vm_compute. reflexivity. Qed.
