(** C100: a training run on well-formed logs comes to its end, and every update of it has a
    defined forward pass. *)
From Coq Require Import ZArith List Bool String Reals Lia PeanoNat Permutation.
From Verif Require Import Base Constants Naki Decision Process VecLemmas RoundExamples DataLoader SpecData DataLemmas SpecRound SpecTurn RoundSplit Tensor SpecTensor TensorLemmas TensorRound PropsRound PropsTensor PropsBatch
  Encoder EncoderSum Network SpecNetwork PropsNetwork TrainLoop SpecTrainLoop TrainLoopLemmas PropsTrainLoop TrainComplete.
Import ListNotations.
Open Scope Z_scope.

(** ** Well-formed logs *)
(** A round that keeps the seats consistent, with unambiguous calls, at most one riichi
    payment per player and four starting scores (as in C73). *)
Definition regular_round (evs : list event) : Prop :=
  exists e0 rest pls, evs = e0 :: rest /\ plays_of_round evs pls /\ orderly pls /\ List.length (initial_scores e0) = 4%nat.
(** Somebody discards a tile. *)
Definition has_discard (evs : list event) : Prop := exists pls who tile, plays_of_round evs pls /\ In (PlDiscard who tile) pls.
Definition regular_log (root : elem) : Prop :=
  exists go rounds, get_rounds root = Ok (go, rounds) /\ Forall regular_round rounds /\ Exists has_discard rounds.
(** [process] of a file: reading the XML tree, then [process]. *)
Definition load (L : libs) (tree : string -> res elem) (f : string) : res game := root <- tree f ;; process L root.
(** A directory: no file fails an assertion, the accepted ones are regular, and the last
    one is accepted. *)
Definition usable (L : libs) (tree : string -> res elem) (files : list string) : Prop :=
  (forall f, In f files -> load L tree f <> Err AssertionError /\ load L tree f <> Err SystemExit) /\
  (forall f root g, In f files -> tree f = Ok root -> process L root = Ok g -> regular_log root) /\
  (files = [] \/ exists fs f g, files = fs ++ [f] /\ load L tree f = Ok g).
(** The head of the network for the rows of a head of [forward]. *)
Definition net_head (h : TrainLoop.head) : which :=
  match h with TrainLoop.During => Network.During | TrainLoop.Discard => Network.Discard | TrainLoop.Post => Network.Post end.

(** ** Games from regular logs *)
Definition good (g : game) : Prop := exists L root, process L root = Ok g /\ regular_log root.

Lemma plays_unique e0 rest pls pls' : plays_of_round (e0 :: rest) pls -> plays_of_round (e0 :: rest) pls' -> pls = pls'.
Proof.
  intros (a & p & r & E & F & R & M) (a' & p' & r' & E' & F' & R' & M'). injection E as <- E. injection E' as <- E'. rewrite E in E'.
  destruct (split_unique result_event _ _ _ _ F R F' R' E') as [-> ->]. rewrite M in M'. now apply map_some_inj in M'.
Qed.

Lemma discard_shape pls who tile : In (PlDiscard who tile) pls -> forall n, exists k, In (HDiscard who tile k) (shapes n pls).
Proof.
  induction pls as [|p l IH]; intros H n; [destruct H|]. destruct H as [->|H].
  - exists n. cbn [shapes In]. auto.
  - destruct p; cbn [shapes]; try (destruct (IH H n) as (k & K); exists k; cbn [In]; tauto);
      try (destruct (IH H (n + 1)) as (k & K); exists k; try destruct (is_kakan code); cbn [In]; tauto).
Qed.

Lemma round_discards L go evs half tokens a t : process_round L go evs = Ok (half, tokens) -> has_discard evs -> build_tensors a half tokens = Ok t -> t_discard t <> [].
Proof.
  intros H (pls & who & tile & Hp & I) B. destruct evs as [|e0 rest]; [discriminate H|].
  destruct (C43_rows _ _ _ _ _ _ _ H B) as (_ & D & _).
  destruct (round_runs _ _ _ _ _ _ _ H Hp) as (plays & n & s & R & Eh & _ & _).
  pose proof (C30_indices _ _ _ _ _ _ _ R) as Sh. destruct (discard_shape _ _ _ I 0) as (k & K). rewrite <- Sh in K. apply in_map_iff in K as (h & Hs & Hi).
  assert (Hd : In (map_half (observe s) h) (discards half)).
  { apply filter_In. split; [rewrite Eh; now apply in_map|]. destruct h; try discriminate Hs. reflexivity. }
  intros E. rewrite E in D. inversion D as [X|]; subst. rewrite <- X in Hd. destruct Hd.
Qed.

Lemma good_rounds L root g : process L root = Ok g -> exists go rounds, get_rounds root = Ok (go, rounds) /\
  Forall2 (fun evs hx => process_round L go evs = Ok hx) rounds (combine (fst g) (snd g)) /\ List.length (fst g) = List.length rounds /\ List.length (snd g) = List.length rounds.
Proof.
  intros H. apply process_ok in H as (go & rs & A & _ & M & L1 & L2). exists go, rs. apply mapM_ok in M. auto.
Qed.

Lemma good_batch a b : b <> [] -> Forall good b -> exists t, prepare_batches a b = Ok t /\ t_discard t <> [].
Proof.
  intros N F.
  assert (Bd : Forall (fun g : game => Forall (Forall buildable) (fst g)) b).
  { eapply Forall_impl; [|exact F]. intros g (L & root & H & go & rs & G & Fr & _). destruct (good_rounds _ _ _ H) as (go' & rs' & G' & F2 & L1 & L2).
    rewrite G in G'. injection G' as <- <-. clear N F H G. revert L1 L2 F2. destruct g as [hs ts]. cbn [fst snd]. revert hs ts.
    induction Fr as [|evs rs (e0 & rest & pls & -> & Hp & Ho & Hs) _ IH]; intros [|h hs] [|tk ts] L1 L2 F2; try discriminate; [constructor|].
    cbn [combine] in F2. inversion F2 as [|? ? ? ? H1 F2']; subst. constructor; [eapply accepted_buildable; eassumption|].
    apply (IH hs ts); [now injection L1|now injection L2|exact F2']. }
  assert (W : exists rs, rounds_of b rs).
  { destruct (C83_games b) as (rs & R & _); [|now exists rs]. eapply Forall_impl; [|exact F]. intros g (L & root & H & _). eauto. }
  destruct W as (rs & R). pose proof (rounds_flat _ _ R) as Er.
  assert (D : exists L go evs hx, In hx rs /\ process_round L go evs = Ok hx /\ has_discard evs).
  { destruct b as [|g b]; [congruence|]. inversion F as [|? ? (L & root & H & go & rounds & G & _ & X) _]; subst. destruct (good_rounds _ _ _ H) as (go' & rs' & G' & F2 & _).
    rewrite G in G'. injection G' as <- <-. apply Exists_exists in X as (evs & I & X).
    cbn [map List.concat]. clear - F2 I X. induction F2 as [|x y l l' Hxy _ IH]; [destruct I|]. destruct I as [<-|I].
    - exists L, go, x, y. split; [now left|auto].
    - destruct (IH I) as (L0 & go0 & e0 & hx & J & K). exists L0, go0, e0, hx. split; [now right|exact K]. }
  destruct (C55_exact_partial a b Bd) as [[[_ X] _]|[_ (t & E)]].
  - exfalso. destruct D as (L & go & evs & hx & I & _). rewrite Er, X in I. destruct I.
  - exists t. split; [exact E|]. destruct (C83_rows a b rs t R E) as (parts & Fp & _ & Ed & _). rewrite Ed.
    destruct D as (L & go & evs & [half tk] & I & Hr & Hd). clear - Fp I Hr Hd. induction Fp as [|x p l l' Hx _ IH]; [destruct I|]. cbn [map List.concat]. destruct I as [->|I].
    + pose proof (round_discards _ _ _ _ _ _ _ Hr Hd Hx) as Q. intros Y. apply app_eq_nil in Y. tauto.
    + intros Y. apply app_eq_nil in Y as [_ Y]. exact (IH I Y).
Qed.

(** Every row of a batch of processed games is a sample of a round. *)
Lemma batch_from_round a b t h r : Forall (fun g : game => exists L root, process L root = Ok g) b -> prepare_batches a b = Ok t -> In r (rows_of h t) -> from_round a h r.
Proof.
  intros F E I. destruct (C83_games b F) as (rs & R & _). destruct (C83_rows a b rs t R E) as (parts & Fp & E1 & E2 & E3).
  assert (Q : exists p, In p parts /\ In r (rows_of h p)).
  { destruct h; cbn [rows_of] in *; [rewrite E1 in I|rewrite E2 in I|rewrite E3 in I]; apply in_concat in I as (l & J & I); apply in_map_iff in J as (p & <- & J); eauto. }
  destruct Q as (p & Ip & Ir).
  assert (Q : exists hx, In hx rs /\ build_tensors a (fst hx) (snd hx) = Ok p).
  { clear - Fp Ip. induction Fp as [|x y l l' Hx _ IH]; [destruct Ip|]. destruct Ip as [->|Ip]; [exists x; split; [now left|exact Hx]|]. destruct (IH Ip) as (hx & A & B). exists hx. split; [now right|exact B]. }
  destruct Q as ([hf tk] & Ih & Hb). cbn [fst snd] in Hb.
  rewrite (rounds_flat _ _ R) in Ih. apply in_concat in Ih as (l & J & Ih). apply in_map_iff in J as (g & <- & J).
  rewrite Forall_forall in F. destruct (F g J) as (L & root & H). destruct (good_rounds _ _ _ H) as (go & rounds & _ & F2 & _).
  assert (Q : exists evs, process_round L go evs = Ok (hf, tk)).
  { clear - F2 Ih. induction F2 as [|x y l l' Hx _ IH]; [destruct Ih|]. destruct Ih as [->|Ih]; [now exists x|exact (IH Ih)]. }
  destruct Q as (evs & Hr). exists L, go, evs, hf, tk, p. auto.
Qed.

Lemma selected {rows sel : list sample} : rows <> [] -> selection row_limit rows sel -> sel <> [] /\ forall r, In r sel -> In r rows.
Proof.
  intros N [[_ ->]|(_ & idx & _ & Li & F)]; [auto|]. split.
  - intros ->. inversion F; subst. cbn in Li. discriminate Li.
  - intros r I. clear - F I. induction F as [|i x l l' Hx _ IH]; [destruct I|]. destruct I as [->|I]; [eapply nth_error_In; exact Hx|exact (IH I)].
Qed.

Section Trace.
  Context (a : agent) (proc : string -> res game) (bs : Z) (val : list string).
  Context (PR : forall f g, proc f = Ok g -> exists L root, process L root = Ok g).
  Definition trained (e : tevent) : Prop := match e with
    | Update _ _ h c => exists rows, rows <> [] /\ c = columns_of rows /\ Forall (from_round a (net_head h)) rows
    | _ => True end.
  Lemma fed_trained h b t z evs : Forall (fun g : game => exists L root, process L root = Ok g) b -> prepare_batches a b = Ok t -> fed h (rows_of (net_head h) t) z evs -> Forall trained evs.
  Proof.
    intros F E [[_ ->]|(N & sel & S & ->)]; [constructor|]. constructor; [|constructor]. destruct (selected N S) as [Ns I].
    exists sel. split; [exact Ns|]. split; [reflexivity|]. apply Forall_forall. intros r Hr. eapply batch_from_round; [exact F|exact E|auto].
  Qed.
  Lemma iteration_trained iter k batches z evs z' : iteration_trace a proc bs val iter k batches z evs z' ->
    Forall (Forall (fun g : game => exists L root, process L root = Ok g)) batches -> Forall trained evs.
  Proof.
    induction 1 as [|k b batches z t d e f v rest z' E D1 D2 D3 V _ IH]; intros F; [constructor|]. inversion F as [|? ? Fb F']; subst.
    apply Forall_app. split; [exact (fed_trained TrainLoop.During b t _ _ Fb E D1)|]. apply Forall_app. split; [exact (fed_trained TrainLoop.Discard b t _ _ Fb E D2)|].
    apply Forall_app. split; [exact (fed_trained TrainLoop.Post b t _ _ Fb E D3)|]. apply Forall_app. split; [|auto].
    destruct V as [(_ & l & _ & ->)|[_ ->]]; repeat constructor.
  Qed.
  Lemma fill_proc n : forall rest acc b k, fill proc n rest acc = (Ok b, k) -> Forall (fun g => exists f, proc f = Ok g) acc -> Forall (fun g => exists f, proc f = Ok g) b.
  Proof.
    induction rest as [|f r IH]; intros acc b k H F; cbn [fill] in H; [injection H as <- _; exact F|].
    destruct (_ <? _); [|injection H as <- _; exact F]. destruct (proc f) as [g|e] eqn:E.
    - destruct (fill proc n r (acc ++ [g])) as [o m] eqn:E2. injection H as -> _. eapply IH; [exact E2|]. apply Forall_app. split; [exact F|]. constructor; [now exists f|constructor].
    - destruct e; try (injection H as H _; discriminate H); destruct (fill proc n r acc) as [o m] eqn:E2; injection H as -> _; eapply IH; eauto.
  Qed.
  Lemma iterate_proc fuel : forall d batches o d', iterate proc fuel d = Some (batches, o, d') -> Forall (Forall (fun g : game => exists L root, process L root = Ok g)) batches.
  Proof.
    induction fuel as [|fuel IH]; intros d batches o d' H; [discriminate H|]. cbn [iterate] in H. destruct (dl_next proc d) as [[b|e] d1] eqn:En.
    - destruct (iterate proc fuel d1) as [[[l o'] d2]|] eqn:Ei; [|discriminate H]. injection H as <- <- <-. constructor; [|eapply IH; exact Ei].
      unfold dl_next in En. destruct (Nat.leb _ _); [discriminate En|]. destruct (fill proc (dl_bs d) (skipn (dl_cur d) (dl_files d)) []) as [o n] eqn:Ef. injection En as -> _.
      eapply Forall_impl; [|eapply fill_proc; [exact Ef|constructor]]. intros g (f & Hf). eapply PR; exact Hf.
    - destruct e; injection H as <- _ _; constructor.
  Qed.
  Lemma run_trained train m iter z evs : run_trace a proc bs train val m iter z evs -> Forall trained evs.
  Proof.
    induction 1 as [|m iter z files fuel batches d evs z' rest _ It T _ IH]; [constructor|]. apply Forall_app. split; [|constructor; [exact Logic.I|exact IH]].
    eapply iteration_trained; [exact T|]. eapply iterate_proc; exact It.
  Qed.
End Trace.

(** ** C100 *)
(** Training for any number of iterations on usable directories, with a validation file,
    ends normally for every model, batch size, starting iteration and random order; every
    update uses at least one sample, and the network has an output and a loss for these
    samples whatever its weights are and whatever dropout does. *)
Theorem C100_completes : forall a L tree rnd fuel bs m start train val, random_orders rnd -> 0 < bs -> train <> [] -> val <> [] ->
  Forall (fun files => usable L tree files /\ (List.length files < fuel)%nat) (val :: train) ->
  exists s, run a (load L tree) rnd fuel bs m start train val = Ok s /\
  forall k m h c, In (Update k m h c) (t_trace s) -> exists rows, rows <> [] /\ c = columns_of rows /\ Forall (from_round a (net_head h)) rows /\
    forall net, exists logits loss, forward a net (net_head h) rows = Ok (logits, loss) /\ dims logits = [List.length rows; width (net_head h)].
Proof.
  intros a L tree rnd fuel bs m start train val R B Nt Nv F. inversion F as [|? ? [Uv Lv] Ft]; subst.
  assert (Q : forall files, usable L tree files -> sound_dir (load L tree) good files).
  { intros files (A & C & D). split; [exact A|]. split; [|exact D]. intros f g If H. unfold load in H. destruct (tree f) as [root|] eqn:Et; [|discriminate H]. cbn [bind] in H.
    exists L, root. split; [exact H|]. eapply C; eauto. }
  assert (T : Forall (fun fs => sound_dir (load L tree) good fs /\ (List.length fs < fuel)%nat) train).
  { eapply Forall_impl; [|exact Ft]. intros fs [U Lf]. auto. }
  destruct (run_sound a (load L tree) rnd good R (good_batch a) bs B fuel val Nv (Q val Uv) Lv train Nt T m start (map (fun f => dl_init f bs) train) (MkT 0 0 None (dl_init val bs) Training [])) as (s & E).
  - clear. induction train; cbn [map]; constructor; [split; [reflexivity|split; reflexivity]|assumption].
  - split; reflexivity.
  - repeat split.
  - exists s. split; [exact E|]. intros k m0 h c I.
    pose proof (C87_run a (load L tree) rnd fuel bs m start train val s R B E) as Tr.
    assert (PR : forall f g, load L tree f = Ok g -> exists L root, process L root = Ok g).
    { intros f g H. unfold load in H. destruct (tree f) as [root|]; [|discriminate H]. now exists L, root. }
    pose proof (run_trained a (load L tree) bs val PR _ _ _ _ _ Tr) as W. rewrite Forall_forall in W. destruct (W _ I) as (rows & N & Ec & Fr).
    exists rows. split; [exact N|]. split; [exact Ec|]. split; [exact Fr|]. intros net. now apply C52_rounds.
Qed.
Print Assumptions C100_completes.
(** A directory with a log of an unsupported game, an unreadable file and a good log. *)
Definition demo_tree (f : string) : res elem :=
  if String.eqb f "good" then Ok (small_log "169") else if String.eqb f "unsupported" then Ok (small_log "185") else Err RuntimeError.
Lemma small_log_regular : regular_log (small_log "169").
Proof.
  destruct C73_small as (e0 & rest & pls & half & tokens & Ee & Hp & Ho & Hs & _).
  exists 169, [small_round]. split; [vm_compute; reflexivity|]. split; [constructor; [exists e0, rest, pls; auto|constructor]|].
  constructor. exists pls, 0, 110. split; [exact Hp|].
  assert (E : small_round = hd (MkEvent "" []) small_round :: firstn small_plays (tl small_round) ++ skipn small_plays (tl small_round)) by (apply split_round; [reflexivity|vm_compute; lia]).
  assert (Hq : plays_of_round small_round (plays_in (firstn small_plays (tl small_round)))) by (rewrite E at 1; apply plays_check; vm_compute; reflexivity).
  assert (Ep : pls = plays_in (firstn small_plays (tl small_round))) by (revert Hp Hq; generalize (plays_in (firstn small_plays (tl small_round))); rewrite Ee; intros q; apply plays_unique).
  rewrite Ep. vm_compute. tauto.
Qed.
Example C100_example : usable ex_libs demo_tree ["unsupported"; "unreadable"; "good"]%string /\ usable ex_libs demo_tree ["good"]%string /\
  ~ usable ex_libs demo_tree ["good"; "unsupported"]%string.
Proof.
  assert (G : exists g, load ex_libs demo_tree "good" = Ok g) by (vm_compute; eexists; reflexivity). destruct G as (g & G).
  assert (U : load ex_libs demo_tree "unsupported" = Err InvalidGameException) by (vm_compute; reflexivity).
  assert (W : load ex_libs demo_tree "unreadable" = Err RuntimeError) by reflexivity.
  assert (T : forall f root g', demo_tree f = Ok root -> process ex_libs root = Ok g' -> f = "good"%string).
  { intros f root g' E P. unfold demo_tree in E. destruct (String.eqb_spec f "good") as [->|_]; [reflexivity|].
    destruct (String.eqb_spec f "unsupported") as [->|_]; [|discriminate E]. injection E as <-. change (load ex_libs demo_tree "unsupported" = Ok g') in P. congruence. }
  assert (K : forall files : list string, forall f root g', In f files -> demo_tree f = Ok root -> process ex_libs root = Ok g' -> regular_log root).
  { intros files f root g' _ E P. rewrite (T _ _ _ E P) in E. change (demo_tree "good") with (@Ok elem (small_log "169")) in E. injection E as <-. exact small_log_regular. }
  split; [|split].
  - split; [|split; [apply K|right; exists ["unsupported"; "unreadable"]%string, "good"%string, g; auto]].
    intros f [<-|[<-|[<-|[]]]]; [rewrite U|rewrite W|rewrite G]; split; discriminate.
  - split; [|split; [apply K|right; exists [], "good"%string, g; auto]]. intros f [<-|[]]. rewrite G. split; discriminate.
  - intros (_ & _ & [X|(fs & f & g' & E & X)]); [discriminate X|]. change ["good"; "unsupported"]%string with (["good"] ++ ["unsupported"])%list%string in E. apply app_inj_tail in E as [_ <-]. congruence.
Qed.
