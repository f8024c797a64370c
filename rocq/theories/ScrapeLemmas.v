(** Proofs about ScrapeRun.v. *)
From Coq Require Import ZArith List Bool String Ascii Lia PeanoNat.
From Verif Require Import Base Train TrainLemmas Scrape ScrapeRun SpecScrape PropsScrape.
Import ListNotations.
Open Scope Z_scope.

(** ** Strings *)
Lemma sapp_length a b : String.length (a ++ b) = (String.length a + String.length b)%nat.
Proof. induction a; cbn; congruence. Qed.

(** ** Links of a page *)
Lemma strip_prefix_len p s r : strip_prefix p s = Some r -> (String.length r <= String.length s)%nat.
Proof.
  revert s. induction p as [|a p IH]; intros s H; cbn in H; [injection H as ->; lia|].
  destruct s as [|b s]; [discriminate H|]. destruct (Ascii.eqb a b); [|discriminate H]. apply IH in H. cbn. lia.
Qed.
Lemma to_quote_len s u e : to_quote s = Some (u, e) -> (String.length e <= String.length s)%nat.
Proof.
  revert u. induction s as [|c s IH]; intros u H; cbn [to_quote] in H; [discriminate H|]. destruct (is_quote c); [injection H as _ ->; cbn; lia|].
  destruct (Ascii.eqb c newline); [discriminate H|]. destruct (to_quote s) as [[u' e']|]; [|discriminate H].
  injection H as _ ->. specialize (IH _ eq_refl). cbn. lia.
Qed.
Lemma past_gt_len s e : past_gt s = Some e -> (String.length e <= String.length s)%nat.
Proof.
  induction s as [|c s IH]; intros H; cbn [past_gt] in H; [discriminate H|]. destruct (Ascii.eqb c _); [injection H as ->; cbn; lia|].
  destruct (Ascii.eqb c newline); [discriminate H|]. specialize (IH H). cbn. lia.
Qed.
Lemma href_here_len s u e : href_here s = Some (u, e) -> (String.length e <= String.length s)%nat.
Proof.
  unfold href_here. destruct (strip_prefix "href=" s) as [[|q r]|] eqn:E; try discriminate. apply strip_prefix_len in E. cbn in E.
  destruct (is_quote q); [|discriminate]. destruct (to_quote r) as [[u' e']|] eqn:E1; [|discriminate]. apply to_quote_len in E1.
  destruct (past_gt e') as [e''|] eqn:E2; [|discriminate]. apply past_gt_len in E2. intros H. injection H as _ <-. lia.
Qed.
Lemma find_href_eq s : find_href s = match href_here s with Some x => Some x | None => match s with
  | EmptyString => None | String c r => if Ascii.eqb c ">"%char then None else find_href r end end.
Proof. destruct s; reflexivity. Qed.
Lemma find_href_len s u e : find_href s = Some (u, e) -> (String.length e <= String.length s)%nat.
Proof.
  revert u e. induction s as [|c s IH]; intros u e H; rewrite find_href_eq in H; destruct (href_here _) as [[u' e']|] eqn:E.
  - injection H as _ <-. now apply href_here_len in E.
  - discriminate H.
  - injection H as _ <-. now apply href_here_len in E.
  - destruct (Ascii.eqb c _); [discriminate H|]. apply IH in H. cbn. lia.
Qed.
Lemma link_at_len s u e : link_at s = Some (u, e) -> (String.length e < String.length s)%nat.
Proof.
  unfold link_at. destruct (strip_prefix "<a" s) as [[|c r]|] eqn:E; try discriminate. apply strip_prefix_len in E. cbn in E.
  destruct (is_space c); [|discriminate]. intros H. apply find_href_len in H. lia.
Qed.
Lemma findall_more n : forall m s, (String.length s <= n)%nat -> (String.length s <= m)%nat -> findall_fuel n s = findall_fuel m s.
Proof.
  induction n as [|n IH]; intros m s Hn Hm; destruct s as [|c r]; cbn [String.length] in *; try lia; [destruct m; reflexivity..|].
  destruct m as [|m]; [lia|]. cbn [findall_fuel]. destruct (link_at (String c r)) as [[u e]|] eqn:E.
  - apply link_at_len in E. cbn [String.length] in E. f_equal. apply IH; lia.
  - apply IH; lia.
Qed.
Lemma find_links_eq s : find_links s = match s with EmptyString => [] | String _ r =>
  match link_at s with Some (u, e) => u :: find_links e | None => find_links r end end.
Proof.
  destruct s as [|c r]; [reflexivity|]. unfold find_links at 1. cbn [String.length findall_fuel].
  destruct (link_at (String c r)) as [[u e]|] eqn:E; [|reflexivity].
  apply link_at_len in E. cbn [String.length] in E. f_equal. apply findall_more; lia.
Qed.

Lemma white_ok c : is_space c = white c.
Proof. destruct c as [[] [] [] [] [] [] [] []]; reflexivity. Qed.
Lemma find_links_text t s : no_anchor t -> find_links (t ++ s) = find_links s.
Proof.
  induction t as [|c t IH]; intros H; [reflexivity|]. destruct H as [H1 H2]. cbn [String.append]. rewrite find_links_eq.
  assert (E : link_at (String c (t ++ s)) = None).
  { unfold link_at. cbn [strip_prefix]. destruct (Ascii.eqb_spec "<"%char c) as [<-|]; [|reflexivity].
    destruct (H1 eq_refl) as (x & r & -> & N). cbn [String.append strip_prefix]. destruct (Ascii.eqb_spec "a"%char x) as [<-|]; [|reflexivity].
    destruct (N eq_refl) as (y & r' & -> & W). cbn [String.append]. now rewrite white_ok, W. }
  rewrite E. now apply IH.
Qed.

Lemma quotation_ok c : is_quote c = quotation c.
Proof. destruct c as [[] [] [] [] [] [] [] []]; reflexivity. Qed.
Lemma newline_ok c : Ascii.eqb c newline = is_newline c.
Proof. destruct c as [[] [] [] [] [] [] [] []]; reflexivity. Qed.
Lemma to_quote_hit u q s : without quotation u -> without is_newline u -> quotation q = true -> to_quote (u ++ String q s) = Some (u, s).
Proof.
  intros A B Q. induction u as [|c u IH]; cbn [String.append to_quote]; [now rewrite quotation_ok, Q|].
  destruct A as [A1 A2], B as [B1 B2]. rewrite quotation_ok, newline_ok, A1, B1. now rewrite (IH A2 B2).
Qed.
Lemma past_gt_hit r s : without is_gt r -> without is_newline r -> past_gt (r ++ ">" ++ s) = Some s.
Proof.
  intros A B. induction r as [|c r IH]; [reflexivity|]. destruct A as [A1 A2], B as [B1 B2]. cbn [String.append past_gt].
  unfold is_gt in A1. rewrite newline_ok, A1, B1. now apply IH.
Qed.
Lemma href_here_hit q1 u q2 r s : quotation q1 = true -> quotation q2 = true -> without quotation u -> without is_newline u ->
  without is_gt r -> without is_newline r -> href_here ("href=" ++ String q1 (u ++ String q2 (r ++ ">" ++ s))) = Some (u, s).
Proof. intros Q1 Q2 A B C D. unfold href_here. rewrite strip_prefix_app, quotation_ok, Q1, to_quote_hit, past_gt_hit by assumption. reflexivity. Qed.

(** No match starts inside attributes that do not contain the keyword. *)
Lemma prefix_split p a x s : strip_prefix p (String x a ++ s) <> None ->
  (exists c, String x a = (p ++ c)%string) \/ (exists c, p = (String x a ++ c)%string /\ strip_prefix c s <> None).
Proof.
  revert x a. induction p as [|y p IH]; intros x a H; [left; now exists (String x a)|].
  cbn [String.append strip_prefix] in H. destruct (Ascii.eqb_spec y x) as [->|]; [|congruence].
  destruct a as [|z a].
  - right. exists p. split; [reflexivity|exact H].
  - destruct (IH _ _ H) as [(c & E)|(c & E & N)]; [left|right]; exists c; cbn [String.append]; [now rewrite E|]. split; [now rewrite E|exact N].
Qed.
Lemma href_inside x a s : (forall c, String x a <> ("href=" ++ c)%string) -> href_here (String x a ++ "href=" ++ s) = None.
Proof.
  intros N. unfold href_here. destruct (strip_prefix "href=" (String x a ++ "href=" ++ s)) as [r|] eqn:E; [exfalso|reflexivity].
  destruct (prefix_split "href=" a x ("href=" ++ s)%string ltac:(now rewrite E)) as [(c & H)|(c & H & M)]; [exact (N c H)|].
  destruct a as [|a1 [|a2 [|a3 [|a4 a5]]]]; cbn [String.append] in H.
  1-4: injection H; intros; subst; cbn in M; congruence.
  injection H as <- <- <- <- <- H. apply (N c). destruct a5; [|discriminate H]. cbn in H. subst c. reflexivity.
Qed.
Lemma find_href_hit a t u s : without is_gt a -> (forall b c, a <> (b ++ "href=" ++ c)%string) ->
  href_here ("href=" ++ t) = Some (u, s) -> find_href (a ++ "href=" ++ t) = Some (u, s).
Proof.
  intros A N H. induction a as [|x a IH]; [cbn [String.append]; rewrite find_href_eq; change (String "h" _) with ("href=" ++ t)%string; now rewrite H|].
  destruct A as [A1 A2]. rewrite find_href_eq, href_inside by (intros c; exact (N EmptyString c)). cbn [String.append].
  unfold is_gt in A1. rewrite A1. apply IH; [exact A2|]. intros b c E. apply (N (String x b) c). cbn [String.append]. now rewrite E.
Qed.
Lemma find_links_page l : Forall proper l -> find_links (page l) = addresses l.
Proof.
  induction 1 as [|x l P F IH]; [reflexivity|]. destruct x as [t|w a q1 u q2 r]; cbn [page fold_right render addresses flat_map]; fold (page l).
  - rewrite find_links_text by exact P. exact IH.
  - destruct P as (P0 & P1 & P2 & P3 & P4 & P5 & P6 & P7 & P8).
    set (body := (a ++ "href=" ++ String q1 (u ++ String q2 (r ++ ">" ++ page l)))%string).
    assert (E : (("<a" ++ String w a ++ "href=" ++ String q1 (u ++ String q2 (r ++ ">"))) ++ page l)%string = ("<a" ++ String w body)%string).
    { unfold body. rewrite !sapp_assoc. cbn [String.append]. rewrite !sapp_assoc. cbn [String.append]. rewrite !sapp_assoc. reflexivity. }
    rewrite E. assert (Lk : link_at ("<a" ++ String w body) = Some (u, page l)).
    { unfold link_at. rewrite strip_prefix_app. rewrite white_ok, P0.
      apply find_href_hit; [exact P1|exact P2|]. now apply href_here_hit. }
    rewrite find_links_eq. cbn [String.append] in *. rewrite Lk. cbn [app]. f_equal. exact IH.
Qed.

(** ** The run *)
Lemma run_links get can entries st : fold_left (do_page get can) entries st = fold_left (do_link get can) (all_links entries) st.
Proof.
  revert st. induction entries as [|e r IH]; intros st; [reflexivity|]. cbn [fold_left all_links flat_map]. rewrite fold_left_app, IH.
  unfold all_links, do_page. now destruct (ends_with ".html" (fst e)).
Qed.
Lemma stopped_links get can l st e : r_stop st = Some e -> fold_left (do_link get can) l st = st.
Proof. intros H. induction l as [|x l IH]; [reflexivity|]. cbn [fold_left]. unfold do_link at 2. rewrite H. exact IH. Qed.

Lemma expected_app can ws tr w a p old : List.length ws = List.length tr ->
  expected can (ws ++ [w]) (tr ++ [a]) p old = expected can [w] [a] p (expected can ws tr p old).
Proof.
  revert tr old. induction ws as [|[r q] ws IH]; intros [|[r' [st b]] tr] old H; try discriminate H; [reflexivity|].
  cbn [app expected]. injection H as H. now rewrite IH.
Qed.

(** What is known after the links [l] have been gone through. *)
Record run_ok (get : client) (can : writable) (l : list string) (d : fs) (st : run_state) : Prop := {
  ro_reqs : map fst (r_trace st) = map fst (firstn (List.length (r_trace st)) (wanted l));
  ro_len : (List.length (r_trace st) <= List.length (wanted l))%nat;
  ro_ans : forall i req ans, nth_error (r_trace st) i = Some (req, ans) -> get (firstn i (map fst (wanted l))) req = Ok ans;
  ro_all : r_stop st = None -> List.length (r_trace st) = List.length (wanted l);
  ro_stop : forall e, r_stop st = Some e ->
    (exists req path, nth_error (wanted l) (List.length (r_trace st)) = Some (req, path) /\
       get (firstn (List.length (r_trace st)) (map fst (wanted l))) req = Err e) \/
    (exists k req path body, List.length (r_trace st) = S k /\ nth_error (wanted l) k = Some (req, path) /\
       nth_error (r_trace st) k = Some (req, (200, body)) /\ can path = false /\ e = RuntimeError);
  ro_disk : forall p, r_disk st p = expected can (wanted l) (r_trace st) p (d p) }.

Lemma split_tail c p s : exists a b r, split_on c (p ++ String c s) = a :: b :: r.
Proof.
  induction p as [|x p (a & b & r & E)]; cbn [String.append split_on].
  - destruct (split_on c s) as [|w ws] eqn:E; [exfalso|rewrite Ascii.eqb_refl; eauto].
    destruct s as [|y s]; cbn in E; [discriminate E|]. destruct (split_on c s), (Ascii.eqb y c); discriminate E.
  - rewrite E. destruct (Ascii.eqb x c); eauto.
Qed.
Lemma scrape_link_ok url e : scrape_link url <> Some (Err e).
Proof.
  unfold scrape_link. destruct (strip_prefix _ url) as [g|] eqn:E; [|discriminate]. apply strip_prefix_inv in E. subst url.
  destruct (split_tail "="%char "http://tenhou.net/0/?log" g) as (a & b & r & Q).
  change ("http://tenhou.net/0/?log=" ++ g)%string with ("http://tenhou.net/0/?log" ++ String "=" g)%string. rewrite Q. cbn [nth_error]. intros H. discriminate H.
Qed.
Lemma prefix_strip p : forall s, String.prefix p s = match strip_prefix p s with Some _ => true | None => false end.
Proof.
  induction p as [|c p IH]; intros s; [now destruct s|]. destruct s as [|x s]; [reflexivity|]. cbn [String.prefix strip_prefix].
  destruct (ascii_dec c x) as [->|N]; [rewrite Ascii.eqb_refl; apply IH|]. destruct (Ascii.eqb_spec c x); [congruence|reflexivity].
Qed.
Lemma substring_all g : substring 0 (String.length g) g = g.
Proof. induction g as [|c g IH]; [reflexivity|]. cbn. now rewrite IH. Qed.
Lemma substring_rest p g : substring (String.length p) (String.length (p ++ g) - String.length p) (p ++ g) = g.
Proof.
  induction p as [|c p IH]; [cbn [String.length String.append]; rewrite Nat.sub_0_r; apply substring_all|]. cbn [String.length String.append substring Nat.sub]. exact IH.
Qed.
Lemma up_to_ok s : nth_error (split_on "="%char s) 0 = Some (up_to_equals s).
Proof.
  induction s as [|c s IH]; [reflexivity|]. cbn [split_on up_to_equals]. destruct (split_on "=" s) as [|w ws]; [discriminate IH|]. cbn in IH. injection IH as ->.
  destruct (Ascii.eqb c "="); reflexivity.
Qed.
Lemma wanted_by_ok url : wanted_by url = match scrape_link url with Some (Ok x) => [x] | _ => [] end.
Proof.
  unfold wanted_by, scrape_link. rewrite prefix_strip. fold log_prefix. destruct (strip_prefix log_prefix url) as [g|] eqn:E; [|reflexivity].
  apply strip_prefix_inv in E. subst url. rewrite substring_rest.
  change (log_prefix ++ g)%string with ("http://tenhou.net/0/?log" ++ String "="%char g)%string.
  rewrite split_second by (repeat split; discriminate). rewrite up_to_ok. do 2 f_equal.
  destruct (up_to_equals g) as [|c n]; [reflexivity|]. destruct c as [[] [] [] [] [] [] [] []]; reflexivity.
Qed.
Lemma wanted_snoc l x : wanted (l ++ [x]) = wanted l ++ wanted_by x.
Proof. unfold wanted. rewrite flat_map_app. cbn [flat_map]. now rewrite app_nil_r. Qed.
Lemma firstn_less {A} n (a b : list A) : (n <= List.length a)%nat -> firstn n (a ++ b) = firstn n a.
Proof. intros H. rewrite firstn_app. replace (n - List.length a)%nat with 0%nat by lia. cbn [firstn]. apply app_nil_r. Qed.
Lemma expected_more can ws x tr p old : (List.length tr <= List.length ws)%nat -> expected can (ws ++ x) tr p old = expected can ws tr p old.
Proof.
  revert tr old. induction ws as [|[r q] ws IH]; intros [|[r' [st b]] tr] old H; cbn [List.length] in H; try lia.
  - destruct x as [|[? ?] ?]; reflexivity.
  - reflexivity.
  - cbn [app expected]. apply IH. lia.
Qed.

Lemma run_ok_more get can l x d st e : run_ok get can l d st -> r_stop st = Some e -> run_ok get can (l ++ [x]) d st.
Proof.
  intros [A B C D E F] H. pose proof B as B'. split; rewrite ?wanted_snoc, ?map_app.
  - rewrite firstn_less by exact B. exact A.
  - rewrite app_length. lia.
  - intros i req ans G. rewrite firstn_less; [now apply C|]. assert (G' : nth_error (r_trace st) i <> None) by (rewrite G; discriminate). apply nth_error_Some in G'. rewrite map_length. lia.
  - congruence.
  - intros e' H'. destruct (E e' H') as [(req & path & N & G)|(k & req & path & body & K & N & T & Q)].
    + left. exists req, path. split; [rewrite nth_error_app1; [exact N|]; apply nth_error_Some; congruence|].
      rewrite firstn_less by (rewrite map_length; exact B'). exact G.
    + right. exists k, req, path, body. split; [exact K|]. split; [rewrite nth_error_app1; [exact N|]; apply nth_error_Some; congruence|]. auto.
  - intros p. rewrite expected_more by exact B. apply F.
Qed.

Lemma run_ok_holds get can l d : run_ok get can l d (fold_left (do_link get can) l (MkRun [] d None)).
Proof.
  induction l as [|x l IH] using rev_ind.
  - split; cbn; try reflexivity; try lia; try discriminate. intros [|i] req ans H; discriminate H.
  - rewrite fold_left_app. cbn [fold_left]. set (st := fold_left _ l _) in *. clearbody st. unfold do_link.
    destruct (r_stop st) as [e|] eqn:Es; [now apply run_ok_more with e|].
    destruct IH as [A B C D E F]. specialize (D Es). rewrite D, firstn_all in A.
    destruct (scrape_link x) as [[[req path]|e]|] eqn:El.
    + assert (Wx : wanted_by x = [(req, path)]) by (rewrite wanted_by_ok; now rewrite El).
      assert (Fu : firstn (List.length (r_trace st)) (map fst (wanted l ++ [(req, path)])) = map fst (wanted l)).
      { rewrite map_app, firstn_less, firstn_all2; rewrite ?map_length; auto; lia. }
      assert (Old : forall i r a, nth_error (r_trace st) i = Some (r, a) -> get (firstn i (map fst (wanted l ++ [(req, path)]))) r = Ok a).
      { intros i r a H. rewrite map_app, firstn_less; [now apply C|]. assert (H' : nth_error (r_trace st) i <> None) by congruence. apply nth_error_Some in H'. rewrite map_length. lia. }
      rewrite A. destruct (get (map fst (wanted l)) req) as [[status body]|e] eqn:Eg.
      * set (tr := r_trace st ++ [(req, (status, body))]).
        assert (Lt : List.length tr = List.length (wanted l ++ [(req, path)])) by (unfold tr; rewrite !app_length, D; reflexivity).
        assert (Rq : map fst tr = map fst (firstn (List.length tr) (wanted l ++ [(req, path)]))) by (rewrite Lt, firstn_all; unfold tr; now rewrite !map_app, A).
        assert (An : forall i r a, nth_error tr i = Some (r, a) -> get (firstn i (map fst (wanted l ++ [(req, path)]))) r = Ok a).
        { intros i r a H. unfold tr in H. destruct (Nat.lt_ge_cases i (List.length (r_trace st))) as [Hi|Hi].
          - rewrite nth_error_app1 in H by exact Hi. now apply Old.
          - rewrite nth_error_app2 in H by exact Hi. destruct (i - List.length (r_trace st))%nat as [|j] eqn:Ei; [|destruct j; discriminate H].
            injection H as <- <-. replace i with (List.length (r_trace st)) by lia. rewrite Fu. exact Eg. }
        assert (Dk : forall p, expected can (wanted l ++ [(req, path)]) tr p (d p) = if (status =? 200) && can path && String.eqb p path then Some body else r_disk st p).
        { intros p. unfold tr. rewrite expected_app by auto. cbn [expected]. now rewrite F. }
        destruct (status =? 200) eqn:E2; [destruct (can path) eqn:E3|].
        -- split; cbn [r_trace r_stop r_disk]; rewrite ?wanted_snoc, ?Wx; auto; try lia; try discriminate.
           intros p. rewrite Dk. unfold write. reflexivity.
        -- apply Z.eqb_eq in E2. subst status. split; cbn [r_trace r_stop r_disk]; rewrite ?wanted_snoc, ?Wx; auto; try lia; try discriminate.
           ++ intros e H. injection H as <-. right. exists (List.length (r_trace st)), req, path, body.
              split; [unfold tr; rewrite app_length; cbn; lia|]. split; [rewrite D, nth_error_app2, Nat.sub_diag by lia; reflexivity|].
              split; [unfold tr; rewrite nth_error_app2, Nat.sub_diag by lia; reflexivity|auto].
           ++ intros p. now rewrite Dk.
        -- split; cbn [r_trace r_stop r_disk]; rewrite ?wanted_snoc, ?Wx; auto; try lia; try discriminate.
           intros p. now rewrite Dk.
      * split; cbn [r_trace r_stop r_disk]; rewrite ?wanted_snoc, ?Wx; auto; try discriminate.
        -- rewrite firstn_less, D, firstn_all by lia. exact A.
        -- rewrite app_length. lia.
        -- intros e' H. injection H as <-. left. exists req, path. split; [rewrite D, nth_error_app2, Nat.sub_diag by lia; reflexivity|]. now rewrite Fu.
        -- intros p. rewrite expected_more by lia. apply F.
    + now elim (scrape_link_ok x e).
    + assert (Wx : wanted_by x = []) by (rewrite wanted_by_ok; now rewrite El).
      split; rewrite ?wanted_snoc, ?Wx, ?app_nil_r; auto. rewrite D, firstn_all. exact A.
Qed.

(** ** The raw directory *)
Lemma strip_suffix_iff suf s b : strip_suffix suf s = Some b <-> s = (b ++ suf)%string.
Proof.
  revert b. induction s as [|c s IH]; intros b; cbn [strip_suffix].
  - destruct (String.eqb_spec suf "") as [->|N].
    + split; [intros H; injection H as <-; reflexivity|]. destruct b; [reflexivity|discriminate].
    + split; [discriminate|]. destruct b; [cbn; intros <-; congruence|discriminate].
  - destruct (String.eqb_spec suf (String c s)) as [->|N].
    + split; [intros H; injection H as <-; reflexivity|]. intros H. destruct b as [|x b]; [reflexivity|exfalso].
      apply (f_equal String.length) in H. cbn [String.append String.length] in H. rewrite sapp_length in H. cbn [String.length] in H. lia.
    + split.
      * destruct (strip_suffix suf s) as [b'|] eqn:E; [|discriminate]. intros H. injection H as <-. cbn [String.append]. f_equal. now apply IH.
      * destruct b as [|x b]; [cbn; congruence|]. cbn [String.append]. intros H. injection H as <- H. apply IH in H. now rewrite H.
Qed.
Lemma suffix_inj suf a b : (a ++ suf)%string = (b ++ suf)%string -> a = b.
Proof. intros H. apply strip_suffix_iff in H. assert (E : strip_suffix suf (a ++ suf) = Some a) by now apply strip_suffix_iff. congruence. Qed.
Lemma in_remove n m (v : string) d : In (m, v) (remove_file n d) <-> In (m, v) d /\ m <> n.
Proof. unfold remove_file. rewrite filter_In. cbn [fst]. destruct (String.eqb_spec m n); cbn; intuition congruence. Qed.
Lemma lookup_some n v d : lookup n d = Some v -> In (n, v) d.
Proof.
  unfold lookup. destruct (find _ d) as [[m x]|] eqn:E; [|discriminate]. intros H. injection H as <-. apply find_some in E as [I E].
  cbn [fst] in E. apply String.eqb_eq in E. now subst.
Qed.
Lemma lookup_none n d : lookup n d = None <-> ~ In n (names d).
Proof.
  unfold lookup, names. destruct (find _ d) as [[m x]|] eqn:E; cbn.
  - split; [discriminate|]. intros H. exfalso. apply H. apply find_some in E as [I E]. cbn [fst] in E. apply String.eqb_eq in E. subst.
    change n with (fst (n, x)). now apply in_map.
  - split; [|auto]. intros _ H. apply in_map_iff in H as ([m v] & <- & I). apply (find_none _ _ E) in I. cbn [fst] in I. now rewrite String.eqb_refl in I.
Qed.
Lemma in_names n d : In n (names d) <-> exists v, In (n, v) d.
Proof.
  unfold names. rewrite in_map_iff. split; [intros ([m v] & <- & I); eauto|]. intros (v & I). exists (n, v). auto.
Qed.

Lemma starts_scc_iff n : starts_scc n = true <-> exists r, n = ("scc" ++ r)%string.
Proof.
  unfold starts_scc. split.
  - destruct (strip_prefix "scc" n) as [r|] eqn:E; [|discriminate]. intros _. exists r. now apply strip_prefix_inv in E.
  - intros (r & ->). now rewrite strip_prefix_app.
Qed.
Lemma visible_iff n : visible n = false <-> exists r, n = ("." ++ r)%string.
Proof.
  unfold visible. destruct n as [|c n]; [split; [discriminate|intros (r & H); discriminate H]|].
  destruct (Ascii.eqb_spec c "."%char) as [->|N]; cbn; split; try discriminate; try reflexivity; eauto.
  intros (r & H). injection H as -> _. congruence.
Qed.
Lemma delete_fold l d n v : In (n, v) (fold_left (fun d m => if starts_scc m then d else remove_file m d) l d) <->
  In (n, v) d /\ (In n l -> starts_scc n = true).
Proof.
  revert d. induction l as [|m l IH]; intros d; cbn [fold_left]; [cbn; tauto|]. rewrite IH. destruct (starts_scc m) eqn:E.
  - cbn [In]. split; [|tauto]. intros [A B]. split; [exact A|]. intros [->|]; auto.
  - rewrite in_remove. cbn [In]. split.
    + intros [[A N] B]. split; [exact A|]. intros [->|]; [congruence|auto].
    + intros [A B]. split; [split; [exact A|]|auto]. intros ->. rewrite B in E by auto. discriminate E.
Qed.
Lemma delete_others_in d n v : In (n, v) (delete_others d) <-> In (n, v) d /\ kept n.
Proof.
  unfold delete_others. rewrite delete_fold, filter_In. unfold kept. rewrite <- visible_iff, <- starts_scc_iff. fold (names d). rewrite in_names.
  split; intros [A B]; (split; [exact A|]).
  - destruct (visible n); [right; apply B; eauto|auto].
  - intros [_ V]. destruct B; [congruence|assumption].
Qed.
Lemma filter_nodup_names f (d : dir) : NoDup (names d) -> NoDup (names (filter f d)).
Proof.
  unfold names. induction d as [|e d IH]; [auto|]. cbn [map filter]. intros H. inversion H as [|? ? A B]; subst. destruct (f e); [|auto]. cbn [map]. constructor; [|auto].
  intros C. apply A. apply in_map_iff in C as (x & <- & C). apply in_map. now apply filter_In in C.
Qed.
Lemma delete_nodup d : NoDup (names d) -> NoDup (names (delete_others d)).
Proof.
  unfold delete_others. generalize (filter visible (map fst d)). intros l. revert d. induction l as [|m l IH]; intros d H; cbn [fold_left]; [exact H|].
  apply IH. destruct (starts_scc m); [exact H|]. now apply filter_nodup_names.
Qed.
Lemma nodup_fun (d : dir) n v w : NoDup (names d) -> In (n, v) d -> In (n, w) d -> v = w.
Proof.
  unfold names. induction d as [|[m x] d IH]; intros H A B; [destruct A|]. cbn [map fst] in H. inversion H as [|? ? N H']; subst.
  destruct A as [A|A], B as [B|B].
  - congruence.
  - exfalso. apply N. assert (m = n) by congruence. subst m. exact (in_map fst _ _ B).
  - exfalso. apply N. assert (m = n) by congruence. subst m. exact (in_map fst _ _ A).
  - auto.
Qed.

Section Unzip.
  Context (unz : string -> option string) (d : dir) (ND : NoDup (names d)) (NT : no_twins d).
  (** The directory after the names [l] have been unpacked. *)
  Definition unzipped (l : list string) (n v : string) : Prop :=
    (In (n, v) d /\ ~ (In n l /\ exists base w, n = (base ++ ".gz")%string /\ unz v = Some w)) \/
    (exists m z, In m l /\ In (m, z) d /\ m = (n ++ ".gz")%string /\ unz z = Some v).
  Lemma unzip_fold l : NoDup l -> (forall m, In m l -> In m (names d)) ->
    forall n v, In (n, v) (fold_left (gunzip unz) l d) <-> unzipped l n v.
  Proof.
    induction l as [|m l IH] using rev_ind; intros Nl Sub n v.
    - cbn [fold_left]. unfold unzipped. cbn [In]. split; [intros H; left; tauto|]. intros [H|(m & z & [] & _)]. tauto.
    - rewrite fold_left_app. cbn [fold_left].
      assert (Nm : ~ In m l) by (apply NoDup_remove_2 in Nl; now rewrite app_nil_r in Nl).
      assert (Nl' : NoDup l) by (apply NoDup_remove_1 in Nl; now rewrite app_nil_r in Nl).
      specialize (IH Nl' (fun x H => Sub x (in_or_app _ _ _ (or_introl H)))). set (c := fold_left (gunzip unz) l d) in *. clearbody c.
      assert (Im : In m (names d)) by (apply Sub, in_or_app; right; now left).
      pose proof (proj1 (in_names _ _) Im) as (z & Iz).
      assert (Cz : forall x, In (m, x) c <-> x = z).
      { intros x. rewrite IH. split.
        - intros [[A _]|(k & y & _ & A & -> & _)]; [exact (nodup_fun _ _ _ _ ND A Iz)|exfalso].
          apply (NT m Im). apply in_names. eauto.
        - intros ->. left. tauto. }
      assert (Lm : lookup m c = Some z).
      { destruct (lookup m c) as [x|] eqn:E; [apply lookup_some, Cz in E; congruence|]. apply lookup_none in E. exfalso. apply E, in_names. exists z. now apply Cz. }
      unfold gunzip. rewrite Lm.
      assert (Sm : forall k y, In k (l ++ [m]) /\ In (k, y) d <-> (In k l /\ In (k, y) d) \/ (k = m /\ y = z)).
      { intros k y. rewrite in_app_iff. cbn [In]. split.
        - intros [[A|[<-|[]]] B]; [tauto|]. right. split; [reflexivity|]. exact (nodup_fun _ _ _ _ ND B Iz).
        - intros [A|[-> ->]]; tauto. }
      destruct (strip_suffix ".gz" m) as [base|] eqn:Es.
      + apply strip_suffix_iff in Es.
        assert (Lb : lookup base c = None).
        { apply lookup_none. intros H. apply in_names in H as (x & H). apply IH in H as [[A _]|(k & y & A & B & -> & _)].
          - apply (NT base); [apply in_names; eauto|]. now rewrite <- Es.
          - congruence. }
        rewrite Lb. destruct (unz z) as [w|] eqn:Eu.
        * rewrite in_app_iff, in_remove, IH. cbn [In]. unfold unzipped. split.
          -- intros [[[[A B]|(k & y & A & B & C & D)] N]|[H|[]]].
             ++ left. split; [exact A|]. rewrite in_app_iff. cbn [In]. intros [[H|[H|[]]] Q]; [tauto|congruence].
             ++ right. exists k, y. rewrite in_app_iff. auto.
             ++ injection H as <- <-. right. exists m, z. rewrite in_app_iff. cbn [In]. auto.
          -- intros [[A B]|(k & y & A & B & C & D)].
             ++ left. assert (N : n <> m).
                { intros ->. apply B. split; [apply in_or_app; right; now left|]. exists base, w. split; [exact Es|]. now rewrite (nodup_fun _ _ _ _ ND A Iz). }
                split; [|exact N]. left. split; [exact A|]. intros [H Q]. apply B. split; [apply in_or_app; now left|exact Q].
             ++ destruct (proj1 (Sm k y) (conj A B)) as [[A' B']|[-> ->]].
                ** left. split; [right; exists k, y; auto|]. intros ->. apply (NT m Im). rewrite <- C. apply in_names. eauto.
                ** right. left. rewrite Eu in D. injection D as <-. rewrite Es in C. apply suffix_inj in C. now subst.
        * rewrite IH. unfold unzipped. split.
          -- intros [[A B]|(k & y & A & B & C & D)]; [left|right; exists k, y; rewrite in_app_iff; auto]. split; [exact A|].
             rewrite in_app_iff. cbn [In]. intros [[H|[<-|[]]] (b & x & Q & R)]; [apply B; eauto|]. rewrite (nodup_fun _ _ _ _ ND A Iz) in R. congruence.
          -- intros [[A B]|(k & y & A & B & C & D)].
             ++ left. split; [exact A|]. intros [H Q]. apply B. split; [apply in_or_app; now left|exact Q].
             ++ destruct (proj1 (Sm k y) (conj A B)) as [[A' B']|[-> ->]]; [right; exists k, y; auto|congruence].
      + assert (Ns : forall b, m <> (b ++ ".gz")%string) by (intros b H; apply strip_suffix_iff in H; congruence).
        rewrite IH. unfold unzipped. split.
        * intros [[A B]|(k & y & A & B & C & D)]; [left|right; exists k, y; rewrite in_app_iff; auto]. split; [exact A|].
          rewrite in_app_iff. cbn [In]. intros [[H|[<-|[]]] (b & x & Q & R)]; [apply B; eauto|]. now apply Ns in Q.
        * intros [[A B]|(k & y & A & B & C & D)].
          -- left. split; [exact A|]. intros [H Q]. apply B. split; [apply in_or_app; now left|exact Q].
          -- destruct (proj1 (Sm k y) (conj A B)) as [[A' B']|[-> ->]]; [right; exists k, y; auto|now apply Ns in C].
  Qed.
End Unzip.

Lemma scc_base base : (exists r, (base ++ ".gz")%string = ("scc" ++ r)%string) -> visible (base ++ ".gz") = true.
Proof. intros (r & ->). reflexivity. Qed.
Lemma filter_raw_in unz d n v : NoDup (names d) -> no_twins d ->
  (In (n, v) (filter_raw unz d) <->
   (In (n, v) d /\ kept n /\ ~ (exists base w, unpacks unz n v base w)) \/ (exists m z, In (m, z) d /\ unpacks unz m z n v)).
Proof.
  intros ND NT. unfold filter_raw, unzip_all. set (e := delete_others d).
  assert (NDe : NoDup (names e)) by now apply delete_nodup.
  assert (Sub : forall x, In x (names e) -> In x (names d)) by (intros x; rewrite !in_names; intros (y & H); apply delete_others_in in H as [H _]; eauto).
  assert (NTe : no_twins e) by (intros x A B; exact (NT x (Sub _ A) (Sub _ B))).
  rewrite (unzip_fold unz e NDe NTe); [|apply NoDup_filter; exact NDe|intros m H; apply filter_In in H; apply H].
  assert (Sel : forall m, In m (filter (fun n => visible n && ends_with ".gz" n) (map fst e)) <->
                In m (names e) /\ visible m = true /\ exists b, m = (b ++ ".gz")%string).
  { intros m. rewrite filter_In, andb_true_iff, ends_with_spec. reflexivity. }
  assert (Ke : forall m y, In (m, y) e -> visible m = true -> exists r, m = ("scc" ++ r)%string).
  { intros m y H V. apply delete_others_in in H as [_ [K|K]]; [apply visible_iff in K; congruence|exact K]. }
  unfold unzipped, unpacks. split.
  - intros [[A B]|(m & z & A & B & C & D)].
    + pose proof A as A'. apply delete_others_in in A' as [A1 A2]. left. split; [exact A1|]. split; [exact A2|].
      intros (base & w & Q & S' & R). apply B. split; [|eauto]. apply Sel. split; [apply in_names; eauto|]. split; [|eauto]. destruct S' as (r & ->). reflexivity.
    + apply Sel in A as (A1 & A2 & _). right. exists m, z. pose proof B as B'. apply delete_others_in in B' as [B1 _]. eauto 6.
  - intros [(A & K & B)|(m & z & A & C & S' & D)].
    + left. split; [now apply delete_others_in|]. intros [H (b & w & Q & R)]. apply Sel in H as (H1 & H2 & _). apply B. exists b, w. split; [exact Q|].
      split; [|exact R]. apply (Ke n v); [now apply delete_others_in|exact H2].
    + right. exists m, z. assert (I : In (m, z) e) by (apply delete_others_in; split; [exact A|right; exact S']).
      split; [|auto]. apply Sel. split; [apply in_names; eauto|]. split; [|eauto]. destruct S' as (r & ->). reflexivity.
Qed.
