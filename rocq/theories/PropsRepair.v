(** C123 and C124: running the data preparation again.  Model in ScrapeRun.v, vocabulary in
    SpecScrape.v. *)
From Coq Require Import ZArith List Bool String Ascii Lia.
From Verif Require Import Base Train TrainLemmas Scrape ScrapeRun SpecScrape ScrapeLemmas PropsScrapeRun.
Import ListNotations.
Open Scope Z_scope.

(** Any number of runs over the same pages, each with answers of its own and each
    interrupted while it stores an answer. *)
Inductive attempts (can : writable) (urls : list string) : fs -> fs -> Prop :=
| no_attempt d : attempts can urls d d
| one_more get d d1 d2 path : interrupted get can urls d d1 path -> attempts can urls d1 d2 -> attempts can urls d d2.

(** ** Proofs *)
Lemma expected_other can ws : forall tr p old, ~ In p (map snd ws) -> expected can ws tr p old = old.
Proof.
  induction ws as [|[r q] ws IH]; intros tr p old N; [reflexivity|]. destruct tr as [|[r' [st b]] tr]; [reflexivity|]. cbn [expected].
  rewrite IH by (intros H; apply N; now right). destruct (String.eqb_spec p q) as [->|]; [elim N; now left|]. now rewrite andb_false_r.
Qed.
Lemma expected_good can ws : forall tr p, List.length tr = List.length ws -> (forall req ans, In (req, ans) tr -> fst ans = 200) -> (forall w, In w ws -> can (snd w) = true) ->
  In p (map snd ws) -> exists i req body, nth_error ws i = Some (req, p) /\ (exists r, nth_error tr i = Some (r, (200, body))) /\ forall old, expected can ws tr p old = Some body.
Proof.
  induction ws as [|[r q] ws IH]; intros tr p L G C H; [destruct H|]. destruct tr as [|[r' [st b]] tr]; [discriminate L|]. injection L as L.
  assert (G' : forall req ans, In (req, ans) tr -> fst ans = 200) by (intros req ans J; apply (G req ans); now right).
  assert (C' : forall w, In w ws -> can (snd w) = true) by (intros w J; apply C; now right).
  destruct (in_dec string_dec p (map snd ws)) as [J|J].
  - destruct (IH tr p L G' C' J) as (i & req & body & A1 & A2 & A3). exists (S i), req, body. split; [exact A1|]. split; [exact A2|]. intros old. apply A3.
  - destruct H as [<-|H]; [|contradiction]. exists 0%nat, r, b. cbn [snd] in *.
    assert (E : st = 200) by exact (G r' (st, b) (or_introl eq_refl)). subst st.
    split; [reflexivity|]. split; [exists r'; reflexivity|]. intros old. cbn [expected]. rewrite expected_other by exact J.
    rewrite String.eqb_refl. pose proof (C (r, q) (or_introl eq_refl)) as Cq. cbn [snd] in Cq. now rewrite Cq.
Qed.
Lemma link_wanted url req path : scrape_link url = Some (Ok (req, path)) -> wanted_by url = [(req, path)].
Proof. intros H. now rewrite wanted_by_ok, H. Qed.
Lemma attempts_other can urls d d' : attempts can urls d d' -> forall p, ~ In p (map snd (wanted urls)) -> d' p = d p.
Proof.
  induction 1 as [d|get d d1 d2 path I _ IH]; intros p N; [reflexivity|]. rewrite IH by exact N. clear IH.
  destruct I as (before & url & after & req & body & b & c & E & A & B & C & D & F & G). rewrite G. unfold write.
  assert (W : wanted urls = wanted before ++ wanted_by url ++ wanted after) by (rewrite E; unfold wanted; now rewrite flat_map_app).
  rewrite (link_wanted _ _ _ B) in W. rewrite W, !map_app in N. cbn [map snd app] in N.
  destruct (String.eqb_spec p path) as [->|]; [elim N; apply in_or_app; right; now left|].
  rewrite (ro_disk _ _ _ _ _ (run_ok_holds get can before d) p). apply expected_other. intros J. apply N. apply in_or_app. now left.
Qed.

(** C123.  After any number of interrupted runs, a run that ends without an error and gets
    good answers leaves every listed log complete, as its own answer, and every other file
    as it was in the beginning: the directory is the one this run alone would have left. *)
Theorem C123_repaired : forall can entries d d' get,
  attempts can (all_links entries) d d' ->
  let st := scrape_run get can entries d' in
  r_stop st = None -> (forall req ans, In (req, ans) (r_trace st) -> fst ans = 200) -> (forall w, In w (wanted (all_links entries)) -> can (snd w) = true) ->
  (forall p, In p (map snd (wanted (all_links entries))) ->
     exists i req body, nth_error (wanted (all_links entries)) i = Some (req, p) /\ nth_error (r_trace st) i = Some (req, (200, body)) /\ r_disk st p = Some body) /\
  (forall p, ~ In p (map snd (wanted (all_links entries))) -> r_disk st p = d p) /\
  (forall p, r_disk st p = r_disk (scrape_run get can entries d) p).
Proof.
  intros can entries d d' get At st N G C. set (ws := wanted (all_links entries)) in *.
  assert (Es : forall d, scrape_run get can entries d = fold_left (do_link get can) (all_links entries) (MkRun [] d None)) by (intros; apply run_links).
  assert (T : forall l st1 st2, r_trace st1 = r_trace st2 -> r_stop st1 = r_stop st2 ->
     r_trace (fold_left (do_link get can) l st1) = r_trace (fold_left (do_link get can) l st2)).
  { clear. induction l as [|u l IH]; intros st1 st2 A B; [exact A|]. cbn [fold_left].
    assert (X : r_trace (do_link get can st1 u) = r_trace (do_link get can st2 u) /\ r_stop (do_link get can st1 u) = r_stop (do_link get can st2 u)).
    { unfold do_link. rewrite <- B. destruct (r_stop st1) eqn:Q; [split; congruence|]. destruct (scrape_link u) as [[[req path]|e]|]; cbn; [|split; congruence|split; congruence].
      rewrite <- A. destruct (get _ req) as [[s b]|e]; cbn; [|split; congruence]. destruct (s =? 200); [destruct (can path)|]; cbn; split; congruence. }
    apply IH; apply X. }
  assert (Et : r_trace (scrape_run get can entries d) = r_trace st) by (unfold st; rewrite !Es; now apply T).
  pose proof (run_ok_holds get can (all_links entries) d') as R. rewrite <- Es in R. fold st in R. destruct R as [R1 R2 R3 R4 R5 R6]. specialize (R4 N).
  assert (Good : forall p, In p (map snd ws) -> exists i req body, nth_error ws i = Some (req, p) /\ nth_error (r_trace st) i = Some (req, (200, body)) /\ forall old, expected can ws (r_trace st) p old = Some body).
  { intros p J. destruct (expected_good can ws (r_trace st) p R4 G C J) as (i & req & body & A1 & (r & A2) & A3). exists i, req, body. split; [exact A1|]. split; [|exact A3].
    fold ws in R1. rewrite R4, firstn_all in R1. assert (X : nth_error (map fst (r_trace st)) i = nth_error (map fst ws) i) by now rewrite R1.
    rewrite !nth_error_map, A1, A2 in X. cbn in X. injection X as ->. exact A2. }
  split; [|split].
  - intros p J. destruct (Good p J) as (i & req & body & A1 & A2 & A3). exists i, req, body. split; [exact A1|]. split; [exact A2|]. rewrite R6. apply A3.
  - intros p J. rewrite R6. fold ws. rewrite expected_other by exact J. now apply (attempts_other _ _ _ _ At).
  - intros p. rewrite R6, C95_files, Et. fold ws. destruct (in_dec string_dec p (map snd ws)) as [J|J].
    + destruct (Good p J) as (i & req & body & _ & _ & A3). now rewrite !A3.
    + rewrite !expected_other by exact J. now apply (attempts_other _ _ _ _ At).
Qed.
Print Assumptions C123_repaired.
(** The first log is interrupted after three letters, then the run is repeated. *)
Example C123_example : exists d', attempts (fun _ => true) (all_links [("scc1.html", page ex_page)])%string ex_old d' /\
  d' "processed/2021/2021010100gm-00a9-0000-0a1b2c3d.log"%string = Some "new"%string /\
  let st := scrape_run (fun _ req => Ok (200, req)) (fun _ => true) [("scc1.html", page ex_page)]%string d' in
  r_stop st = None /\ List.length (r_trace st) = 2%nat /\
  r_disk st "processed/2021/2021010100gm-00a9-0000-0a1b2c3d.log"%string = Some "https://tenhou.net/0/log/?2021010100gm-00a9-0000-0a1b2c3d"%string.
Proof.
  exists (write "processed/2021/2021010100gm-00a9-0000-0a1b2c3d.log" "new" ex_old). split; [|vm_compute; auto].
  assert (E : exists before url after, all_links [("scc1.html", page ex_page)]%string = before ++ url :: after /\
    fold_left (do_link ex_get (fun _ => true)) before (MkRun [] ex_old None) = MkRun [] ex_old None /\
    scrape_link url = Some (Ok ("https://tenhou.net/0/log/?2021010100gm-00a9-0000-0a1b2c3d", "processed/2021/2021010100gm-00a9-0000-0a1b2c3d.log"))%string).
  { first [exists []; eexists _, _; split; [vm_compute; reflexivity|split; vm_compute; reflexivity]
          |eexists [_]; eexists _, _; split; [vm_compute; reflexivity|split; vm_compute; reflexivity]
          |eexists [_; _]; eexists _, _; split; [vm_compute; reflexivity|split; vm_compute; reflexivity]]. }
  destruct E as (before & url & after & E1 & E2 & E3).
  eapply one_more with (get := ex_get); [|apply no_attempt]. exists before, url, after. eexists _, _, "new"%string, " game"%string. split; [exact E1|]. cbv zeta. rewrite E2.
  split; [reflexivity|]. split; [exact E3|]. split; [reflexivity|]. repeat split.
Qed.

(** ** C124: cleaning up twice *)
(** No file is packed twice. *)
Definition single (d : dir) : Prop := forall n, In n (names d) -> ~ exists r, n = (r ++ ".gz" ++ ".gz")%string.
(** Without files packed twice (and without packed and unpacked twins, as in C97) a second
    clean-up changes nothing. *)
Theorem C124_once_partial : forall unz d, NoDup (names d) -> no_twins d -> single d -> filter_raw unz (filter_raw unz d) = filter_raw unz d.
Proof.
  intros unz d ND NT Si. set (d1 := filter_raw unz d).
  assert (A : forall n v, In (n, v) d1 -> kept n /\ forall base, n = (base ++ ".gz")%string -> (exists r, n = ("scc" ++ r)%string) -> unz v = None).
  { intros n v H. apply C97_cleanup in H as [(H & K & U)|(m & z & H & E & (r & S0) & Uz)]; auto.
    - split; [exact K|]. intros base E S0. destruct (unz v) as [w|] eqn:Q; [|reflexivity]. elim U. exists base, w. split; [exact E|]. split; [exact S0|exact Q].
    - split.
      + right. rewrite S0 in E. destruct n as [|c1 [|c2 [|c3 n]]]; cbn in E; try discriminate E.
        injection E as <- <- <- E. now exists n.
      + intros base -> _. elim (Si m); [apply in_map_iff; exists (m, z); auto|]. exists base. rewrite E. now rewrite sapp_assoc. }
  clearbody d1. clear d ND NT Si. assert (D : delete_others d1 = d1).
  { unfold delete_others. assert (F : forall l d, (forall n, In n l -> starts_scc n = true) -> fold_left (fun d n => if starts_scc n then d else remove_file n d) l d = d).
    { clear. induction l as [|n l IH]; intros d H; [reflexivity|]. cbn [fold_left]. rewrite (H n) by now left. apply IH. intros m J. apply H. now right. }
    apply F. intros n J. apply filter_In in J as [J V]. apply in_map_iff in J as ([n' v] & <- & J). cbn [fst] in *.
    destruct (proj1 (A n' v J)) as [(r & ->)|(r & ->)]; [discriminate V|]. reflexivity. }
  unfold filter_raw. rewrite D. unfold unzip_all.
  assert (F : forall l, (forall n, In n l -> visible n = true /\ In n (map fst d1)) -> fold_left (gunzip unz) l d1 = d1).
  { induction l as [|n l IH]; intros H; [reflexivity|]. cbn [fold_left]. replace (gunzip unz d1 n) with d1; [apply IH; intros m J; apply H; now right|].
    unfold gunzip. destruct (strip_suffix ".gz" n) as [base|] eqn:S0; [|reflexivity]. destruct (lookup n d1) as [z|] eqn:Lz; [|reflexivity].
    unfold lookup in Lz. destruct (find _ d1) as [[n' z']|] eqn:Fz; [|discriminate Lz]. injection Lz as <-. apply find_some in Fz as [J Q]. apply String.eqb_eq in Q. cbn [fst] in Q. subst n'.
    destruct (A n z' J) as [K U]. destruct (H n (or_introl eq_refl)) as [V _]. rewrite (U base); [reflexivity| |].
    - clear -S0. revert base S0. induction n as [|c n IH]; intros base S0; [discriminate S0|]. cbn [strip_suffix] in S0. destruct (String.eqb_spec ".gz" (String c n)) as [<-|].
      + injection S0 as <-. reflexivity.
      + destruct (strip_suffix ".gz" n) as [b|]; [|discriminate S0]. injection S0 as <-. cbn. f_equal. now apply IH.
    - destruct K as [(r & ->)|K]; [discriminate V|exact K]. }
  apply F. intros n J. apply filter_In in J as [J V]. apply andb_prop in V as [V _]. auto.
Qed.
Print Assumptions C124_once_partial.
(** A file packed twice is unpacked once per clean-up. *)
Theorem C124_refuted : exists unz d, NoDup (names d) /\ no_twins d /\ filter_raw unz (filter_raw unz d) <> filter_raw unz d /\
  filter_raw unz d = [("scc1.html.gz", "zz-")]%string /\ filter_raw unz (filter_raw unz d) = [("scc1.html", "zz--")]%string.
Proof.
  exists (fun z => Some (z ++ "-")%string), [("scc1.html.gz.gz", "zz")]%string. split; [repeat constructor; intros []|]. split.
  - intros n [<-|[]] [E|[]]. discriminate E.
  - split; [discriminate|]. split; reflexivity.
Qed.
Print Assumptions C124_refuted.
Example C124_example : NoDup (names ex_raw) /\ no_twins ex_raw /\ single ex_raw.
Proof.
  split; [apply C97_example|]. split; [apply C97_example|]. intros n H (r & E). cbn in H.
  assert (T : forall r s, strip_suffix ".gz.gz" s = None -> s = (r ++ ".gz" ++ ".gz")%string -> False).
  { clear. intros r. induction r as [|c r IH]; intros s N ->; [discriminate N|]. cbn [append strip_suffix] in N.
    destruct (String.eqb ".gz.gz" (String c (r ++ ".gz.gz"))); [discriminate N|]. destruct (strip_suffix ".gz.gz" (r ++ ".gz.gz")) eqn:Q; [discriminate N|]. now apply (IH _ Q). }
  repeat (destruct H as [<-|H]; [refine (T r _ _ E); reflexivity|]). exact H.
Qed.
