(** C132: rounds that follow the rules are never rejected.  Statements only; proofs are in
    RoundProgress.v and RoundLegal.v, the vocabulary is in SpecLegal.v. *)
From Coq Require Import ZArith List Bool String Lia.
From Verif Require Import Base Constants Naki Decision GameInfo Agari Process SpecMeld SpecTokens SpecRound SpecLegal
  RoundExamples RoundProgress RoundLegal PropsRound.
Import ListNotations.
Open Scope Z_scope.

(** C132: a round whose deal is proper and whose plays follow the rules is processed to
    the end, whatever the game type, provided the two libraries answer. *)
Theorem C132_round_accepted : forall L go r, libs_answer L -> legal_round r -> exists out, process_round L go r = Ok out.
Proof.
  intros L go r An (e0 & evs & pls & results & -> & Fd & Ev & B & Nr & Fs). exact (legal_round_ok L go e0 evs pls results An Fd Ev B Nr Fs).
Qed.
Print Assumptions C132_round_accepted.
(** So is a log of a supported game all of whose rounds are like that. *)
Theorem C132_log_accepted : forall L root go rounds, libs_answer L -> log_type root go -> supported go -> log_of root rounds -> Forall legal_round rounds ->
  exists out, process L root = Ok out.
Proof. exact legal_log. Qed.
Print Assumptions C132_log_accepted.

(** *** Checking the rules on an example *)
Definition memb (t : Z) (l : list Z) : bool := existsb (Z.eqb t) l.
Lemma memb_in t l : memb t l = true <-> In t l.
Proof.
  unfold memb. rewrite existsb_exists. split; [intros (x & I & E); apply Z.eqb_eq in E; now subst|]. intros I. exists t. split; [exact I|apply Z.eqb_refl].
Qed.
Definition standing_eqb (a b : standing) : bool := match a, b with
  | Waiting, Waiting => true | Drew x, Drew y | Called x, Called y => x =? y | Threw x t, Threw y u => (x =? y) && (t =? u) | _, _ => false end.
Lemma standing_ok a b : standing_eqb a b = true -> a = b.
Proof. destruct a, b; cbn; try discriminate; intros H; try (apply andb_prop in H as [H1 H2]; apply Z.eqb_eq in H1, H2; congruence); try (apply Z.eqb_eq in H; congruence); reflexivity. Qed.
Definition in_handb e0 pls p t : bool := memb t (dealt e0 (Z.to_nat p) ++ drawn p pls) && negb (memb t (discarded p pls ++ shown p pls)).
Lemma in_handb_ok e0 pls p t : in_handb e0 pls p t = true -> in_hand e0 pls p t.
Proof.
  unfold in_handb, in_hand. intros H. apply andb_prop in H as [H1 H2]. split; [now apply memb_in|]. intros I. apply memb_in in I. rewrite I in H2. discriminate.
Qed.
Definition in_wallb e0 pls t : bool := (0 <=? t) && (t <? 136) && negb (memb t (all_dealt e0 ++ [first_indicator e0] ++ all_drawn pls ++ indicators pls)).
Lemma in_wallb_ok e0 pls t : in_wallb e0 pls t = true -> in_wall e0 pls t.
Proof.
  unfold in_wallb, in_wall, valid_id. intros H. apply andb_prop in H as [H1 H2]. split; [lia|]. intros I. apply memb_in in I. rewrite I in H2. discriminate.
Qed.
Definition seatb (w : Z) : bool := (0 <=? w) && (w <? 4).
Definition code_ok (c : Z) : bool := match spec_kind c with
  | Some Chi => field c 10 6 <? 63 | Some Pon => (field c 4 1 =? 0) && (field c 9 7 <? 102) | Some Kakan => field c 9 7 <? 102
  | Some Minkan | Some Ankan => field c 8 8 <? 136 | None => false end.
Lemma code_ok_range c : code_ok c = true -> in_range c.
Proof. unfold code_ok, in_range. destruct (spec_kind c) as [[]|]; intros H; lia || discriminate. Qed.
Definition allowedb e0 pls a : bool := match a with
  | PlDraw w t => seatb w && in_wallb e0 pls t && match stands pls with Waiting | Threw _ _ => true | _ => false end
  | PlDiscard w t => seatb w && in_handb e0 pls w t && (standing_eqb (stands pls) (Drew w) || standing_eqb (stands pls) (Called w))
  | PlCall w c => seatb w && code_ok c && forallb (in_handb e0 pls w) (shown_by c) && match spec_kind c with
     | Some Ankan | Some Kakan => standing_eqb (stands pls) (Drew w)
     | _ => match stands pls, claimed_by c with Threw d t, [x] => negb (d =? w) && (x =? t) | _, _ => false end end
  | PlReach1 w => seatb w && standing_eqb (stands pls) (Drew w)
  | PlReach2 w => seatb w && match stands pls with Threw d _ => d =? w | _ => false end
  | PlDora t => in_wallb e0 pls t end.
Lemma seatb_ok w : seatb w = true -> 0 <= w < 4.
Proof. unfold seatb. lia. Qed.
Lemma allowedb_ok e0 pls a : allowedb e0 pls a = true -> allowed e0 pls a.
Proof.
  destruct a as [w t|w t|w c|w|w|t]; cbn [allowedb allowed]; intros H.
  - apply andb_prop in H as [H H3]. apply andb_prop in H as [H1 H2]. split; [now apply seatb_ok|]. split; [now apply in_wallb_ok|].
    destruct (stands pls); try discriminate; [now left|right; eauto].
  - apply andb_prop in H as [H H3]. apply andb_prop in H as [H1 H2]. split; [now apply seatb_ok|]. split; [now apply in_handb_ok|].
    apply orb_prop in H3 as [H3|H3]; apply standing_ok in H3; auto.
  - apply andb_prop in H as [H H4]. apply andb_prop in H as [H H3]. apply andb_prop in H as [H1 H2]. split; [now apply seatb_ok|]. split; [now apply code_ok_range|].
    split. { apply Forall_forall. intros x I. rewrite forallb_forall in H3. now apply in_handb_ok, H3. }
    assert (Q : match stands pls, claimed_by c with Threw d t, [x] => negb (d =? w) && (x =? t) | _, _ => false end = true ->
      exists d t, stands pls = Threw d t /\ d <> w /\ claimed_by c = [t]).
    { destruct (stands pls) as [| | |d t]; try discriminate. destruct (claimed_by c) as [|x [|]]; try discriminate. intros Q. apply andb_prop in Q as [Q1 Q2].
      exists d, t. split; [reflexivity|]. apply negb_true_iff, Z.eqb_neq in Q1. apply Z.eqb_eq in Q2. subst. auto. }
    destruct (spec_kind c) as [[]|]; auto using standing_ok.
  - apply andb_prop in H as [H1 H2]. split; [now apply seatb_ok|now apply standing_ok].
  - apply andb_prop in H as [H1 H2]. split; [now apply seatb_ok|]. destruct (stands pls) as [| | |d t]; try discriminate. apply Z.eqb_eq in H2. subst. eauto.
  - now apply in_wallb_ok.
Qed.
Fixpoint rulesb e0 (before pls : list play) : bool := match pls with [] => true | a :: r => allowedb e0 before a && rulesb e0 (before ++ [a]) r end.
Lemma rulesb_from e0 pls : forall before, rulesb e0 before pls = true -> forall x a y, pls = x ++ a :: y -> allowed e0 (before ++ x) a.
Proof.
  induction pls as [|p pls IH]; intros before H x a y E; [now apply app_cons_not_nil in E|]. cbn [rulesb] in H. apply andb_prop in H as [H1 H2].
  destruct x as [|q x]; cbn [app] in E; injection E as <- E.
  - rewrite app_nil_r. now apply allowedb_ok.
  - replace (before ++ p :: x) with ((before ++ [p]) ++ x) by now rewrite <- app_assoc. exact (IH _ H2 _ _ _ E).
Qed.
Lemma rulesb_ok e0 pls : rulesb e0 [] pls = true -> by_the_rules e0 pls.
Proof. intros H before a rest E. exact (rulesb_from e0 pls [] H before a rest E). Qed.
Fixpoint distinctb (l : list Z) : bool := match l with [] => true | x :: r => negb (memb x r) && distinctb r end.
Lemma distinctb_ok l : distinctb l = true -> NoDup l.
Proof.
  induction l as [|x l IH]; intros H; [constructor|]. cbn [distinctb] in H. apply andb_prop in H as [Ha Hb]. constructor; [|exact (IH Hb)].
  intros I. apply memb_in in I. rewrite I in Ha. discriminate.
Qed.
Definition fair_dealb (e0 : event) : bool :=
  let nums key := match dict_get (e_attr e0) key with Ok s => match ints s with Ok l => l | _ => [] end | _ => [] end in
  String.eqb (e_tag e0) "INIT" && Nat.eqb (List.length (nums "ten"%string)) 4 && match attr_int e0 "oya" with Some d => (0 <=? d) && (d <? 4) | None => false end &&
  match nums "seed"%string with [_; _; _; _; _; i] => (0 <=? i) && (i <? 136) | _ => false end &&
  forallb (fun p => Nat.eqb (List.length (nums (hai_key p))) 13 && forallb (fun t => (0 <=? t) && (t <? 136)) (nums (hai_key p))) (seq 0 4) &&
  distinctb (first_indicator e0 :: all_dealt e0).
Lemma fair_dealb_ok e0 : fair_dealb e0 = true -> fair_deal e0.
Proof.
  unfold fair_dealb. cbv zeta. set (nums := fun key => match dict_get (e_attr e0) key with Ok s => match ints s with Ok l => l | _ => [] end | _ => [] end).
  assert (An : forall key, nums key <> [] -> attr_ints e0 key (nums key)).
  { intros key H. unfold nums, attr_ints in *. destruct (dict_get (e_attr e0) key) as [s|]; [|congruence]. exists s. split; [reflexivity|]. destruct (ints s); [reflexivity|congruence]. }
  intros H. apply andb_prop in H as [H H6]. apply andb_prop in H as [H H5]. apply andb_prop in H as [H H4]. apply andb_prop in H as [H H3]. apply andb_prop in H as [H1 H2].
  change (match dict_get (e_attr e0) "ten" with Ok s => match ints s with Ok l => l | _ => [] end | _ => [] end) with (nums "ten"%string) in H2.
  change (match dict_get (e_attr e0) "seed" with Ok s => match ints s with Ok l => l | _ => [] end | _ => [] end) with (nums "seed"%string) in H4.
  split; [now apply String.eqb_eq|]. apply Nat.eqb_eq in H2. split. { exists (nums "ten"%string). split; [|exact H2]. apply An. intros E. rewrite E in H2. discriminate H2. }
  split. { destruct (attr_int e0 "oya") as [d|]; [|discriminate]. exists d. split; [reflexivity|lia]. }
  split. { pose proof (An "seed"%string) as As. destruct (nums "seed"%string) as [|a [|b [|c [|d [|e [|i [|]]]]]]]; try discriminate H4. exists a, b, c, d, e, i. split; [apply As; discriminate|]. unfold valid_id. lia. }
  split. { intros p Hp. rewrite forallb_forall in H5. specialize (H5 p). cbv beta in H5.
    change (match dict_get (e_attr e0) (hai_key p) with Ok s => match ints s with Ok l => l | _ => [] end | _ => [] end) with (nums (hai_key p)) in H5.
    assert (Ip : In p (seq 0 4)) by (apply in_seq; lia). apply H5, andb_prop in Ip as [L V]. apply Nat.eqb_eq in L. exists (nums (hai_key p)). split; [apply An; intros E; rewrite E in L; discriminate L|].
    split; [exact L|]. apply Forall_forall. intros t I. rewrite forallb_forall in V. specialize (V t I). unfold valid_id. lia. }
  now apply distinctb_ok.
Qed.

Lemma some_plays evs : forallb (fun e => match play_of e with Some _ => true | None => false end) evs = true ->
  events_of evs (flat_map (fun e => match play_of e with Some a => [a] | None => [] end) evs).
Proof.
  unfold events_of. induction evs as [|e evs IH]; [reflexivity|]. cbn [forallb map flat_map]. destruct (play_of e) as [a|]; [|discriminate]. cbn [andb app map]. intros H. now rewrite IH.
Qed.
(** The example round, with a concealed kan, a pon, a riichi, an added kan and two new
    indicators, follows the rules. *)
Definition small_events : list event := firstn 22 (tl small_round).
Definition small_plays : list play := flat_map (fun e => match play_of e with Some a => [a] | None => [] end) small_events.
Lemma small_legal : legal_round small_round.
Proof.
  exists (hd (MkEvent "" []) small_round), small_events, small_plays, [MkEvent "RYUUKYOKU" [("sc","0,0,0,0")]]%string.
  split; [vm_compute; reflexivity|]. split; [apply fair_dealb_ok; vm_compute; reflexivity|]. split; [apply some_plays; vm_compute; reflexivity|].
  split; [apply rulesb_ok; vm_compute; reflexivity|]. split; [discriminate|]. constructor; [|constructor]. split; [right; reflexivity|].
  eexists. eexists. split; vm_compute; reflexivity.
Qed.
Lemma ex_libs_answer : libs_answer ex_libs.
Proof. split; intros; eexists; reflexivity. Qed.
Example C132_example : libs_answer ex_libs /\ legal_round small_round /\ List.length small_plays = 22%nat /\
  log_type (small_log "169") 169 /\ supported 169 /\ log_of (small_log "169") [small_round].
Proof.
  split; [exact ex_libs_answer|]. split; [exact small_legal|]. split; [vm_compute; reflexivity|].
  split. { eexists. eexists. split; [vm_compute; reflexivity|]. split; vm_compute; reflexivity. }
  split; [repeat split; vm_compute; reflexivity|]. exists RoundSplit.keep. split; [vm_compute; reflexivity|].
  intros e. unfold RoundSplit.keep. rewrite negb_true_iff. rewrite <- RoundSplit.skipped_header. destruct (skipped_tag (e_tag e)); intuition congruence.
Qed.
(** The hypotheses matter: a discard from another player's hand, a draw in the middle of a turn, or a
    library that fails makes the round fail. *)
Example C132_needed : process_round ex_libs 169 (firstn 4 small_round ++ [MkEvent "T124" []; MkEvent "D108" []; MkEvent "RYUUKYOKU" [("sc","0,0,0,0")]]%string) = Err AssertionError /\
  process_round ex_libs 169 (firstn 5 small_round ++ [MkEvent "U111" []; MkEvent "RYUUKYOKU" [("sc","0,0,0,0")]]%string) = Err AssertionError /\
  process_round (MkLibs (fun _ => Err ValueError) (fun _ => Ok 0)) 169 small_round = Err ValueError.
Proof. repeat split; vm_compute; reflexivity. Qed.
