(** C93-C97: downloading game logs.  Vocabulary in SpecScrape.v, proofs in ScrapeLemmas.v. *)
From Coq Require Import ZArith List Bool String Ascii Lia.
From Verif Require Import Base Train TrainLemmas Scrape ScrapeRun SpecScrape ScrapeLemmas PropsScrape.
Import ListNotations.
Open Scope Z_scope.

(** C93.  On a page of text and links the addresses found are those of the links, in order. *)
Theorem C93_links : forall l, Forall proper l -> find_links (page l) = addresses l.
Proof. exact find_links_page. Qed.
Print Assumptions C93_links.
Definition ex_page : list piece :=
  [Text "<td><abbr>four</abbr> players</td>"; Anchor " " "class=x " dquote "http://tenhou.net/0/?log=2021010100gm-00a9-0000-0a1b2c3d" dquote " target=_blank";
   Text "view</a><br>"; Anchor newline "" squote "http://tenhou.net/0/?log=2021010100gm-00a9-0000-ffffffff" squote ""; Text "view</a>"].
Example C93_example : Forall proper ex_page /\ find_links (page ex_page) =
  ["http://tenhou.net/0/?log=2021010100gm-00a9-0000-0a1b2c3d"; "http://tenhou.net/0/?log=2021010100gm-00a9-0000-ffffffff"]%string /\
  find_links ("<a href='x'" ++ String newline "><a href='y'>") = ["y"]%string.
Proof.
  assert (P : Forall proper ex_page).
  { assert (N : forall b c, "class=x "%string <> (b ++ "href=" ++ c)%string).
    { intros b c. do 9 (destruct b as [|? b]; [discriminate|cbn [String.append]; try (intros H; injection H as _ H; revert H)]); try discriminate.  }
    assert (N0 : forall b c, ""%string <> (b ++ "href=" ++ c)%string) by (intros [|? b] c; discriminate).
    assert (T : no_anchor "<td><abbr>four</abbr> players</td>" /\ no_anchor "view</a><br>" /\ no_anchor "view</a>").
    { repeat match goal with
        | |- _ /\ _ => split
        | |- no_anchor (String _ _) => split
        | |- no_anchor EmptyString => exact I
        | |- _ -> _ => let H := fresh in intros H; first [discriminate H|do 2 eexists; split; [reflexivity|]]
        | |- white _ = false => reflexivity
        end. }
    destruct T as (T1 & T2 & T3).
    repeat apply Forall_cons; try exact T1; try exact T2; try exact T3; try apply Forall_nil; cbn [proper];
      repeat split; try exact N; try exact N0; reflexivity. }
  split; [exact P|]. split; [rewrite (C93_links _ P)|]; reflexivity.
Qed.

(** C94.  Every log address of the pages is requested, once per link and in order, until
    the client fails or an answer cannot be stored; without that nothing is left out. *)
Theorem C94_requests : forall get can entries d,
  let st := scrape_run get can entries d in
  let asked := map fst (wanted (all_links entries)) in
  let k := List.length (r_trace st) in
  map fst (r_trace st) = firstn k asked /\
  (forall i req ans, nth_error (r_trace st) i = Some (req, ans) -> get (firstn i asked) req = Ok ans) /\
  (r_stop st = None -> map fst (r_trace st) = asked) /\
  (forall e, r_stop st = Some e ->
     (exists req, nth_error asked k = Some req /\ get (firstn k asked) req = Err e) \/
     (exists j req path body, k = S j /\ nth_error (wanted (all_links entries)) j = Some (req, path) /\
        nth_error (r_trace st) j = Some (req, (200, body)) /\ can path = false)).
Proof.
  intros get can entries d st asked k. subst k asked. assert (Es : st = fold_left (do_link get can) (all_links entries) (MkRun [] d None)) by apply run_links.
  clearbody st. destruct (run_ok_holds get can (all_links entries) d) as [A B C D E F]. rewrite <- Es in A, B, C, D, E, F.
  split; [now rewrite firstn_map|]. split; [exact C|]. split.
  - intros H. rewrite A, (D H), firstn_all. reflexivity.
  - intros e H. destruct (E e H) as [(req & path & N & G)|(j & req & path & body & K & N & T & Q & _)].
    + left. exists req. split; [|exact G]. rewrite nth_error_map, N. reflexivity.
    + right. exists j, req, path, body. auto.
Qed.
Print Assumptions C94_requests.
(** For the pages of C93 the requests are those of C67 for the addresses of the links. *)
Theorem C94_pages : forall get can (pages : list (string * list piece)) d,
  Forall (fun e => Forall proper (snd e) /\ exists b, fst e = (b ++ ".html")%string) pages ->
  let st := scrape_run get can (map (fun e => (fst e, page (snd e))) pages) d in
  r_stop st = None -> map fst (r_trace st) = map fst (wanted (flat_map (fun e => addresses (snd e)) pages)).
Proof.
  intros get can pages d P st H. destruct (C94_requests get can (map (fun e => (fst e, page (snd e))) pages) d) as (_ & _ & A & _).
  fold st in A. rewrite (A H). do 2 f_equal. clear -P. induction P as [|e r [P1 P2] F IH]; [reflexivity|].
  unfold all_links in *. cbn [map flat_map fst snd]. apply ends_with_spec in P2. rewrite P2, find_links_page by exact P1. now f_equal.
Qed.
Print Assumptions C94_pages.

(** C95.  A file ends up with the last good answer stored under its name; a failed
    download, and every other file, leaves it as it was. *)
Theorem C95_files : forall get can entries d p,
  let st := scrape_run get can entries d in
  r_disk st p = expected can (wanted (all_links entries)) (r_trace st) p (d p).
Proof.
  intros get can entries d p st. assert (Es : st = fold_left (do_link get can) (all_links entries) (MkRun [] d None)) by apply run_links.
  rewrite Es. exact (ro_disk _ _ _ _ _ (run_ok_holds get can (all_links entries) d) p).
Qed.
Print Assumptions C95_files.
Lemma expected_old can ws : forall tr p old, (forall i req path st b, nth_error ws i = Some (req, path) -> nth_error tr i = Some (req, (st, b)) -> path = p -> st <> 200) ->
  map fst tr = firstn (List.length tr) (map fst ws) -> expected can ws tr p old = old.
Proof.
  induction ws as [|[r q] ws IH]; intros [|[r' [st b]] tr] p old H M; try reflexivity. cbn [expected]. cbn in M. injection M as -> M.
  rewrite IH; [|intros i req path s' b' X Y; exact (H (S i) req path s' b' X Y)|exact M].
  destruct (Z.eqb_spec st 200) as [->|]; [|reflexivity]. destruct (String.eqb_spec p q) as [->|]; [|now rewrite andb_false_r].
  now elim (H 0%nat r q 200 b eq_refl eq_refl eq_refl).
Qed.
Theorem C95_untouched : forall get can entries d p,
  let st := scrape_run get can entries d in
  (forall i req path s b, nth_error (wanted (all_links entries)) i = Some (req, path) -> nth_error (r_trace st) i = Some (req, (s, b)) -> path = p -> s <> 200) ->
  r_disk st p = d p.
Proof.
  intros get can entries d p st H. unfold st. rewrite C95_files. apply expected_old; [exact H|].
  exact (proj1 (C94_requests get can entries d)).
Qed.
Print Assumptions C95_untouched.

(** The second request fails with status 404: its file keeps the old content. *)
Definition ex_get : client := fun before _ => Ok (match before with [] => (200, "new game"%string) | _ => (404, "missing"%string) end).
Definition ex_old : fs := fun _ => Some "old"%string.
Example C94_example :
  let st := scrape_run ex_get (fun _ => true) [("notes.txt", page ex_page); ("scc1.html", page ex_page)]%string ex_old in
  map fst (r_trace st) = ["https://tenhou.net/0/log/?2021010100gm-00a9-0000-0a1b2c3d"; "https://tenhou.net/0/log/?2021010100gm-00a9-0000-ffffffff"]%string /\
  r_stop st = None /\
  r_disk st "processed/2021/2021010100gm-00a9-0000-0a1b2c3d.log"%string = Some "new game"%string /\
  r_disk st "processed/2021/2021010100gm-00a9-0000-ffffffff.log"%string = Some "old"%string.
Proof. vm_compute. auto. Qed.

(** C96.  After an interruption every file but one is as C95 says for the links already
    gone through; the one being written may hold any prefix of the answer. *)
Theorem C96_one_file_partial : forall get can urls d d' path, interrupted get can urls d d' path ->
  exists before after, urls = before ++ after /\
   let st := fold_left (do_link get can) before (MkRun [] d None) in
   (forall p, p <> path -> d' p = expected can (wanted before) (r_trace st) p (d p)) /\
   (exists req body b c, get (map fst (r_trace st)) req = Ok (200, body) /\ body = (b ++ c)%string /\ d' path = Some b).
Proof.
  intros get can urls d d' path (before & url & after & req & body & b & c & E & A & B & C & D & F & G).
  exists before, (url :: after). split; [exact E|]. cbv zeta. split.
  - intros p N. rewrite G. unfold write. destruct (String.eqb_spec p path); [contradiction|]. apply (ro_disk _ _ _ _ _ (run_ok_holds get can before d)).
  - exists req, body, b, c. split; [exact C|]. split; [exact F|]. rewrite G. unfold write. now rewrite String.eqb_refl.
Qed.
Print Assumptions C96_one_file_partial.
(** So an incomplete log can be left behind under its final name, the old one lost. *)
Theorem C96_refuted : exists get can urls d d' path, interrupted get can urls d d' path /\
  d path = Some "old"%string /\ d' path = Some "new"%string /\ forall before req s b, get before req = Ok (s, b) -> b <> "new"%string.
Proof.
  exists ex_get, (fun _ => true), ["http://tenhou.net/0/?log=g"]%string, ex_old. do 2 eexists. split.
  - exists [], "http://tenhou.net/0/?log=g"%string, []. do 2 eexists. exists "new"%string, " game"%string.
    split; [reflexivity|]. cbv zeta. split; [reflexivity|]. split; [reflexivity|]. split; [reflexivity|]. repeat split.
  - split; [reflexivity|]. split; [reflexivity|]. intros [|x r] req s b H; injection H as _ <-; discriminate.
Qed.
Print Assumptions C96_refuted.

(** C97.  The clean-up keeps the hidden files and the files named scc..., unpacking the
    packed ones that are not damaged, and nothing else. *)
Theorem C97_cleanup : forall unz d n v, NoDup (names d) -> no_twins d ->
  (In (n, v) (filter_raw unz d) <->
   (In (n, v) d /\ kept n /\ ~ (exists base w, unpacks unz n v base w)) \/ (exists m z, In (m, z) d /\ unpacks unz m z n v)).
Proof. exact filter_raw_in. Qed.
Print Assumptions C97_cleanup.
Definition ex_raw : dir :=
  [("scc1.html.gz", "z1"); ("sca1.log.gz", "z2"); (".keep", ""); ("scc2.html", "page"); ("scc3.html.gz", "bad")]%string.
Definition ex_unz (z : string) : option string := if String.eqb z "bad" then None else Some (z ++ "!")%string.
Example C97_example : NoDup (names ex_raw) /\ no_twins ex_raw /\
  filter_raw ex_unz ex_raw = [(".keep", ""); ("scc2.html", "page"); ("scc3.html.gz", "bad"); ("scc1.html", "z1!")]%string.
Proof.
  split; [repeat constructor; cbn; intuition discriminate|]. split; [|reflexivity].
  intros n A B. cbn in A. repeat (destruct A as [<-|A]; [cbn in B; intuition discriminate|]). exact A.
Qed.
