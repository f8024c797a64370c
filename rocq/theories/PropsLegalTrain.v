(** C133: logs of games that follow the rules become samples and can be trained on. *)
From Coq Require Import ZArith List Bool String Reals Lia PeanoNat Permutation.
From Verif Require Import Base Constants Naki Decision Process VecLemmas RoundExamples DataLoader SpecData DataLemmas SpecMeld SpecTokens SpecRound SpecTurn SpecLegal RoundSplit RoundQuery RoundLegal Tensor SpecTensor TensorLemmas TensorRound NakiLemmas PropsRound PropsTensor PropsBatch PropsLegal
  Encoder EncoderSum Network SpecNetwork PropsNetwork TrainLoop SpecTrainLoop TrainLoopLemmas PropsTrainLoop TrainComplete PropsTrainComplete.
Import ListNotations.
Open Scope Z_scope.

(** ** Games that follow the rules *)
(** The two lowest bits of the code of a chi, pon or open kan name the player who discarded. *)
Definition names_discarder (pls : list play) : Prop := forall before w c rest, pls = before ++ PlCall w c :: rest -> spec_kind c <> Some Ankan -> spec_kind c <> Some Kakan ->
  exists d t, stands before = Threw d t /\ (w + c mod 4) mod 4 = d.
(** Nobody pays two riichi sticks. *)
Definition pays_once (pls : list play) : Prop := forall p, 0 <= p < 4 -> sticks p pls <= 1.
(** A round that follows the rules, with these two conditions. *)
Definition fair_round (r : list event) : Prop := exists e0 evs pls results, r = e0 :: evs ++ results /\ fair_deal e0 /\
  events_of evs pls /\ by_the_rules e0 pls /\ results <> [] /\ Forall scored results /\ names_discarder pls /\ pays_once pls.
(** Somebody discards a tile. *)
Definition with_discard (r : list event) : Prop := exists e w t, In e r /\ play_of e = Some (PlDiscard w t).
(** A supported game of such rounds in which somebody discards a tile. *)
Definition fair_game (root : elem) : Prop := exists go rounds, log_type root go /\ supported go /\ log_of root rounds /\
  Forall fair_round rounds /\ Exists with_discard rounds.

(** ** Such rounds are orderly *)
Lemma names_app a b : names_discarder (a ++ b) -> names_discarder a.
Proof. intros H before w c rest E. apply (H before w c (rest ++ b)). rewrite E, <- app_assoc. reflexivity. Qed.
Lemma legal_turns e0 pls : by_the_rules e0 pls -> names_discarder pls ->
  in_turn (-1) pls /\ match stands pls with Waiting => True | Drew w | Called w | Threw w _ => turn (-1) pls = w end.
Proof.
  revert pls. apply (rules_ind e0 (fun pls => names_discarder pls -> in_turn (-1) pls /\ match stands pls with Waiting => True | Drew w | Called w | Threw w _ => turn (-1) pls = w end)).
  - intros _. split; exact I.
  - intros h a _ IH A N. destruct (IH (names_app _ _ N)) as [I1 I2]. clear IH. rewrite stands_snoc, turn_app, in_turn_app.
    destruct a as [w t|w t|w c|w|w|t]; cbn [after in_turn turn].
    + repeat split. exact I1.
    + destruct A as (_ & _ & [A|A]); rewrite A in I2; subst; repeat split; exact I1.
    + destruct A as (_ & R & _ & A). rewrite (proj1 (RoundLegal.kinds c R)). specialize (N h w c [] eq_refl).
      destruct (spec_kind c) as [k|] eqn:Ek; [|unfold in_range in R; rewrite Ek in R; destruct R].
      assert (Q : k <> Ankan -> k <> Kakan -> w <> turn (-1) h /\ (w + c mod 4) mod 4 = turn (-1) h).
      { intros K1 K2. destruct N as (d & t & St & Nm); [congruence..|]. rewrite St in I2. rewrite I2. split; [|exact Nm].
        destruct k; try congruence; destruct A as (d' & t' & St' & Nd & _); rewrite St in St'; injection St' as -> _; congruence. }
      destruct k; cbn beta iota; repeat split; try exact I1; try (apply Q; discriminate); rewrite A in I2; congruence.
    + destruct A as (_ & A). rewrite A in *. subst. repeat split. exact I1.
    + destruct A as (_ & t & A). rewrite A in *. subst. repeat split. exact I1.
    + repeat split; assumption.
Qed.
Lemma legal_unambiguous e0 pls : by_the_rules e0 pls -> unambiguous pls.
Proof.
  intros B w c I. apply in_split in I as (h & r & E). destruct (B h _ r E) as (_ & R & _). pose proof (proj1 (RoundLegal.kinds c R)) as K.
  destruct (is_pon c) eqn:Ep; [|reflexivity]. apply kind_predicates in Ep. rewrite Ep in K. now apply orb_false_elim in K.
Qed.
Lemma fair_legal r : fair_round r -> legal_round r.
Proof. intros (e0 & evs & pls & results & A). exists e0, evs, pls, results. tauto. Qed.
Lemma fair_plays r : fair_round r -> exists e0 rest pls, r = e0 :: rest /\ plays_of_round r pls /\ orderly pls /\ List.length (initial_scores e0) = 4%nat.
Proof.
  intros (e0 & evs & pls & results & -> & Fd & Ev & B & Nr & Fs & Nd & Po). exists e0, (evs ++ results), pls. split; [reflexivity|]. split.
  - exists e0, evs, results. split; [reflexivity|]. split; [|split; [|exact Ev]].
    + apply Forall_forall. intros e I Q. assert (J : In (play_of e) (map Some pls)) by (rewrite <- Ev; now apply in_map).
      apply in_map_iff in J as (x & J & _). symmetry in J. apply play_not_result in J. apply result_iff in Q. congruence.
    + eapply Forall_impl; [|exact Fs]. intros e [H _]. exact H.
  - split; [|now apply fair_scores]. split; [exact (proj1 (legal_turns e0 pls B Nd))|]. split; [exact (legal_unambiguous e0 pls B)|exact Po].
Qed.

(** ** C133 *)
(** Every such round becomes samples, for every agent. *)
Theorem C133_samples : forall L go r a, libs_answer L -> fair_round r -> exists half tokens t, process_round L go r = Ok (half, tokens) /\ build_tensors a half tokens = Ok t.
Proof.
  intros L go r a An F. destruct (C132_round_accepted L go r An (fair_legal r F)) as ([half tokens] & E). destruct (fair_plays r F) as (e0 & rest & pls & -> & P & O & S).
  destruct (C73_buildable L go e0 rest half tokens pls a E P O S) as (t & T). eauto.
Qed.
Print Assumptions C133_samples.

Lemma fair_regular root : fair_game root -> regular_log root.
Proof.
  intros (go & rounds & T & S & Lo & F & D). exists go, rounds. split.
  - destruct T as (g & t & Eg & Et & Ei). unfold get_rounds. rewrite Eg, Et, Ei. cbn [bind]. rewrite (log_groups root rounds Lo). reflexivity.
    eapply Forall_impl; [|exact F]. exact fair_legal.
  - split; [eapply Forall_impl; [|exact F]; exact fair_plays|]. apply Exists_exists in D as (r & Ir & e & w & t & Ie & Pe). apply Exists_exists. exists r. split; [exact Ir|].
    rewrite Forall_forall in F. destruct (fair_plays r (F r Ir)) as (e0 & rest & pls & Er & P & _). exists pls, w, t. split; [exact P|].
    destruct P as (e1 & plays & results & E & Fp & Fr & M). rewrite E in Ie. destruct Ie as [<-|Ie].
    { exfalso. destruct (F r Ir) as (e2 & evs & pl2 & re2 & Er2 & Fd & _). rewrite Er2 in E. injection E as -> _. unfold play_of in Pe. rewrite (proj1 Fd) in Pe. cbn in Pe. discriminate Pe. }
    apply in_app_or in Ie as [Ie|Ie].
    + assert (J : In (Some (PlDiscard w t)) (map Some pls)) by (rewrite <- M, <- Pe; now apply in_map). apply in_map_iff in J as (x & J & I). injection J as ->. exact I.
    + rewrite Forall_forall in Fr. specialize (Fr e Ie). apply play_not_result in Pe. apply result_iff in Fr. congruence.
Qed.
(** Training for any number of iterations on directories of files that all hold such games,
    with at least one training and one validation file, comes to its end, for every model,
    batch size, starting iteration and random order. *)
Theorem C133_trains : forall a L tree rnd fuel bs m start train val, libs_answer L -> random_orders rnd -> 0 < bs -> train <> [] -> val <> [] ->
  (forall files f, In files (val :: train) -> In f files -> exists root, tree f = Ok root /\ fair_game root) ->
  Forall (fun files => (List.length files < fuel)%nat) (val :: train) ->
  exists s, run a (load L tree) rnd fuel bs m start train val = Ok s.
Proof.
  intros a L tree rnd fuel bs m start train val An R B Nt Nv Fg Fl.
  assert (Q : forall files f, In files (val :: train) -> In f files -> exists g, load L tree f = Ok g).
  { intros files f I J. destruct (Fg files f I J) as (root & E & go & rounds & T & S & Lo & F & _). unfold load. rewrite E. cbn [bind].
    apply (C132_log_accepted L root go rounds An T S Lo). eapply Forall_impl; [|exact F]. exact fair_legal. }
  destruct (C100_completes a L tree rnd fuel bs m start train val R B Nt Nv) as (s & E & _); [|eauto].
  apply Forall_forall. intros files I. rewrite Forall_forall in Fl. split; [|now apply Fl]. split; [|split].
  - intros f J. destruct (Q files f I J) as (g & ->). split; discriminate.
  - intros f root g J E _. destruct (Fg files f I J) as (root' & E' & G). rewrite E in E'. injection E' as ->. now apply fair_regular.
  - destruct files as [|x l]; [now left|]. right. destruct (exists_last (l := x :: l)) as (fs & f & E); [discriminate|]. rewrite E in *. destruct (Q _ f I) as (g & G); [apply in_or_app; right; now left|]. eauto.
Qed.
Print Assumptions C133_trains.

(** *** Example *)
Fixpoint namesb (before pls : list play) : bool := match pls with [] => true | a :: r =>
  match a with PlCall w c => match spec_kind c with Some Ankan | Some Kakan => true | _ => match stands before with Threw d _ => (w + c mod 4) mod 4 =? d | _ => false end end | _ => true end && namesb (before ++ [a]) r end.
Lemma namesb_from pls : forall before, namesb before pls = true -> forall x w c y, pls = x ++ PlCall w c :: y -> spec_kind c <> Some Ankan -> spec_kind c <> Some Kakan ->
  exists d t, stands (before ++ x) = Threw d t /\ (w + c mod 4) mod 4 = d.
Proof.
  induction pls as [|p pls IH]; intros before H x w c y E K1 K2; [now apply app_cons_not_nil in E|]. cbn [namesb] in H. apply andb_prop in H as [H1 H2].
  destruct x as [|q x]; cbn [app] in E; injection E as -> E.
  - rewrite app_nil_r. assert (Q : match stands before with Threw d _ => (w + c mod 4) mod 4 =? d | _ => false end = true) by (destruct (spec_kind c) as [[]|]; congruence || exact H1).
    destruct (stands before) as [| | |d t]; try discriminate. apply Z.eqb_eq in Q. eauto.
  - replace (before ++ q :: x) with ((before ++ [q]) ++ x) by now rewrite <- app_assoc. exact (IH _ H2 _ _ _ _ E K1 K2).
Qed.
Lemma namesb_ok pls : namesb [] pls = true -> names_discarder pls.
Proof. intros H before w c rest E. exact (namesb_from pls [] H before w c rest E). Qed.
Lemma small_fair : fair_round small_round.
Proof.
  exists (hd (MkEvent "" []) small_round), small_events, PropsLegal.small_plays, [MkEvent "RYUUKYOKU" [("sc","0,0,0,0")]]%string.
  split; [vm_compute; reflexivity|]. split; [apply fair_dealb_ok; vm_compute; reflexivity|]. split; [apply some_plays; vm_compute; reflexivity|].
  split; [apply rulesb_ok; vm_compute; reflexivity|]. split; [discriminate|]. split. { constructor; [|constructor]. split; [right; reflexivity|]. eexists. eexists. split; vm_compute; reflexivity. }
  split; [apply namesb_ok; vm_compute; reflexivity|]. intros p Hp. assert (p = 0 \/ p = 1 \/ p = 2 \/ p = 3) as [->|[->|[->| ->]]] by lia; vm_compute; discriminate.
Qed.
(** The directories of the theorem exist: here every file holds a game of the example round. *)
Example C133_example : fair_round small_round /\ fair_game (small_log "169") /\
  forall files f, In files [["a"; "b"]; ["c"]; []]%string -> In f files -> exists root, (fun _ : string => Ok (small_log "169")) f = Ok root /\ fair_game root.
Proof.
  assert (G : fair_game (small_log "169")).
  { destruct C132_example as (_ & _ & _ & T & S & Lo). exists 169, [small_round]. split; [exact T|]. split; [exact S|]. split; [exact Lo|]. split; [constructor; [exact small_fair|constructor]|].
    constructor. exists (MkEvent "D110" []), 0, 110. split; [vm_compute; tauto|vm_compute; reflexivity]. }
  split; [exact small_fair|]. split; [exact G|]. intros. eauto.
Qed.
