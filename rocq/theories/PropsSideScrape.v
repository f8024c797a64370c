(** C119: several downloads at once.  Model in SideScrape.v. *)
From Coq Require Import ZArith List Bool String Ascii Lia PeanoNat.
From Verif Require Import Base Train TrainLemmas Scrape ScrapeRun SpecScrape ScrapeLemmas SideScrape.
Import ListNotations.
Open Scope Z_scope.

(** ** Specification *)
(** One of the processes received the answer [body], with status 200, for a link whose
    file is [path]. *)
Definition received (ps : list loader_proc) (path body : string) : Prop :=
  exists p req, In p ps /\ In (req, path, (200, body)) (lp_trace p).
(** A process is in the middle of writing the file. *)
Definition being_written (ps : list loader_proc) (path : string) : Prop :=
  exists p body off, In p ps /\ lp_open p = Some (path, body, off).

(** ** Strings *)
Local Notation slen := String.length.
Lemma get_app a b j : String.get j (a ++ b) = if Nat.ltb j (slen a) then String.get j a else String.get (j - slen a) b.
Proof.
  revert j. induction a as [|c a IH]; intros j; [cbn; now rewrite Nat.sub_0_r|]. destruct j as [|j]; [reflexivity|].
  cbn [String.append String.get slen]. rewrite IH. reflexivity.
Qed.
Lemma get_sdrop n s j : String.get j (sdrop n s) = String.get (n + j) s.
Proof. revert s. induction n as [|n IH]; intros s; [destruct s; reflexivity|]. destruct s as [|c s]; [destruct j; reflexivity|]. apply IH. Qed.
Lemma get_stake n s j : (j < n)%nat -> String.get j (stake n s) = String.get j s.
Proof.
  revert s j. induction n as [|n IH]; intros s j H; [lia|]. destruct s as [|c s]; [reflexivity|]. destruct j as [|j]; [reflexivity|]. cbn [stake String.get]. apply IH. lia.
Qed.
Lemma slen_sdrop n s : slen (sdrop n s) = (slen s - n)%nat.
Proof. revert s. induction n as [|n IH]; intros s; [destruct s; reflexivity|]. destruct s as [|c s]; [reflexivity|]. apply IH. Qed.
Lemma slen_stake n s : slen (stake n s) = Nat.min n (slen s).
Proof. revert s. induction n as [|n IH]; intros s; [reflexivity|]. destruct s as [|c s]; [reflexivity|]. cbn. now rewrite IH. Qed.
Lemma slen_write off s old : slen (write_at off s old) = Nat.max (off + slen s) (slen old).
Proof.
  revert old. induction off as [|off IH]; intros old; cbn [write_at]; [rewrite sapp_length, slen_sdrop; lia|].
  destruct old as [|c old]; cbn [slen]; rewrite IH; cbn [slen]; lia.
Qed.
Lemma get_write off s old j : (j < off + slen s)%nat ->
  String.get j (write_at off s old) = if Nat.ltb j off then (if Nat.ltb j (slen old) then String.get j old else Some zero) else String.get (j - off) s.
Proof.
  revert old j. induction off as [|off IH]; intros old j H; cbn [write_at].
  - rewrite get_app, Nat.sub_0_r. destruct (Nat.ltb_spec j (slen s)); [reflexivity|lia].
  - destruct old as [|c old], j as [|j]; cbn [String.get slen]; try reflexivity; rewrite IH by lia; cbn [slen]; reflexivity.
Qed.
Lemma get_write_after off s old j : (off + slen s <= j)%nat -> String.get j (write_at off s old) = String.get j old.
Proof.
  revert old j. induction off as [|off IH]; intros old j H; cbn [write_at].
  - rewrite get_app. destruct (Nat.ltb_spec j (slen s)); [lia|]. rewrite get_sdrop. f_equal. lia.
  - destruct old as [|c old], j as [|j]; cbn [String.get]; try lia; rewrite IH by lia; [now destruct j|reflexivity].
Qed.
Lemma get_len s j : (j < slen s)%nat <-> String.get j s <> None.
Proof.
  revert j. induction s as [|c s IH]; intros j; [destruct j; cbn; split; [lia|congruence|lia|congruence]|].
  destruct j as [|j]; cbn [String.get slen]; [split; [discriminate|lia]|]. rewrite <- IH. lia.
Qed.
Lemma app_cancel (a b s : string) : (a ++ s = b ++ s)%string -> a = b.
Proof.
  revert b. induction a as [|c a IH]; intros [|x b] H; try reflexivity.
  - apply (f_equal slen) in H. cbn in H. rewrite sapp_length in H. lia.
  - apply (f_equal slen) in H. cbn in H. rewrite sapp_length in H. lia.
  - cbn in H. injection H as -> H. f_equal. now apply IH.
Qed.

(** A file name belongs to one request. *)
Lemma link_path u v r r' p : scrape_link u = Some (Ok (r, p)) -> scrape_link v = Some (Ok (r', p)) -> r = r'.
Proof.
  intros A B. pose proof (wanted_by_ok u) as Wu. pose proof (wanted_by_ok v) as Wv. rewrite A in Wu. rewrite B in Wv. clear A B. unfold wanted_by in *.
  destruct (String.prefix log_prefix u); [|discriminate Wu]. destruct (String.prefix log_prefix v); [|discriminate Wv].
  set (a := up_to_equals (substring _ _ u)) in *. set (b := up_to_equals (substring _ _ v)) in *. clearbody a b.
  injection Wu as <- Pa. injection Wv as <- Pb. cut (a = b); [now intros ->|].
  assert (Q : forall n : string, (match n with String "/" _ => (n ++ ".log")%string | _ => ("processed/2021/" ++ n ++ ".log")%string end) =
    if match n with String c _ => Ascii.eqb c "/" | EmptyString => false end then (n ++ ".log")%string else ("processed/2021/" ++ n ++ ".log")%string).
  { intros [|c n]; [reflexivity|]. destruct c as [[] [] [] [] [] [] [] []]; reflexivity. }
  rewrite Q in Pa, Pb. rewrite <- Pb in Pa. clear Pb Q p.
  destruct (match a with String c _ => Ascii.eqb c "/" | EmptyString => false end) eqn:Ea, (match b with String c _ => Ascii.eqb c "/" | EmptyString => false end) eqn:Eb.
  - now apply app_cancel in Pa.
  - destruct a as [|c a]; [discriminate Ea|]. apply Ascii.eqb_eq in Ea. subst c. discriminate Pa.
  - destruct b as [|c b]; [discriminate Eb|]. apply Ascii.eqb_eq in Eb. subst c. discriminate Pa.
  - apply sapp_inj in Pa. now apply app_cancel in Pa.
Qed.

(** ** The invariant for one path *)
Section One.
  Variable answer : nat -> string -> res (Z * string).
  Variable can : writable.
  Variable body : string -> string.
  Hypothesis Same : forall t req b, answer t req = Ok (200, b) -> b = body req.
  Variable d0 : fs.
  Variable path : string.

  (** What the processes know: recorded good answers are the answers to their requests, and
      a file being written is one for which a good answer was received. *)
  Definition honest (p : loader_proc) : Prop :=
    (forall req q b, In (req, q, (200, b)) (lp_trace p) -> b = body req /\ exists u, scrape_link u = Some (Ok (req, q))) /\
    (forall q b off, lp_open p = Some (q, b, off) -> (off <= slen b)%nat /\ can q = true /\ exists req, In (req, q, (200, b)) (lp_trace p)).

  Definition state_of (d : fs) (ps : list loader_proc) : Prop :=
    (d path = d0 path /\ (can path = false \/ forall b, ~ received ps path b)) \/
    (can path = true /\ exists f c k, d path = Some f /\ received ps path c /\ (slen f <= slen c)%nat /\
       (forall j, (j < k)%nat -> String.get j f = String.get j c) /\
       (k = slen c \/ exists p, In p ps /\ lp_open p = Some (path, c, k))).

  Lemma one_body ps b c : Forall honest ps -> received ps path b -> received ps path c -> b = c.
  Proof.
    intros H (p & r & P & T) (q & s & Q & U). rewrite Forall_forall in H.
    destruct (proj1 (H p P) _ _ _ T) as (-> & u & E). destruct (proj1 (H q Q) _ _ _ U) as (-> & v & F). now rewrite (link_path _ _ _ _ _ E F).
  Qed.
  Lemma nth_upd {A} (l : list A) k x y : nth_error l k = Some x -> forall z, In z (upd l k (fun _ => y)) -> z = y \/ In z l.
  Proof.
    revert k. induction l as [|a l IH]; intros [|k] H z Z0; try discriminate H; cbn in *; [destruct Z0; auto|].
    destruct Z0 as [->|Z0]; [auto|]. destruct (IH k H z Z0); auto.
  Qed.
  Lemma upd_in {A} (l : list A) k x y : nth_error l k = Some x -> In y (upd l k (fun _ => y)).
  Proof. revert k. induction l as [|a l IH]; intros [|k] H; try discriminate H; cbn in *; [now left|right; now apply IH]. Qed.
  Lemma upd_keep {A} (l : list A) k x y z : nth_error l k = Some x -> In z l -> z = x \/ In z (upd l k (fun _ => y)).
  Proof.
    revert k. induction l as [|a l IH]; intros [|k] H Z0; try discriminate H; cbn in *.
    - injection H as ->. destruct Z0; auto.
    - destruct Z0 as [->|Z0]; [auto|]. destruct (IH k H Z0); auto.
  Qed.
  (** Updating a process whose trace only grows. *)
  Lemma received_grow ps k p p' q b : nth_error ps k = Some p -> incl (lp_trace p) (lp_trace p') -> received ps q b -> received (upd ps k (fun _ => p')) q b.
  Proof.
    intros N I (r & req & R & T). destruct (upd_keep ps k p p' r N R) as [->|R']; [|now exists r, req].
    exists p', req. split; [now apply (upd_in ps k p)|now apply I].
  Qed.
  Lemma received_back ps k p p' q b : nth_error ps k = Some p -> received (upd ps k (fun _ => p')) q b ->
    received ps q b \/ exists req, In (req, q, (200, b)) (lp_trace p').
  Proof. intros N (r & req & R & T). destruct (nth_upd ps k p p' N r R) as [->|R']; [right; now exists req|left; now exists r, req]. Qed.

  Lemma honest_step t n d p : honest p -> honest (snd (lp_step (answer t) can n d p)).
  Proof.
    intros [H1 H2]. unfold lp_step. destruct (lp_stop p); [now split|]. destruct (lp_open p) as [[[q b] off]|] eqn:E.
    - destruct (Nat.eqb_spec off (slen b)); cbn [snd]; split; cbn [lp_trace lp_open]; auto; [discriminate|].
      intros q' b' off' X. injection X as <- <- <-. destruct (H2 _ _ _ eq_refl) as (L & C & R). split; [|auto].
      change (off + slen (stake (S n) (sdrop off b)) <= slen b)%nat. rewrite slen_stake, slen_sdrop. lia.
    - destruct (lp_links p) as [|u r] eqn:El; [cbn [snd]; split; [exact H1|rewrite E; discriminate]|].
      destruct (scrape_link u) as [[[req q]|e]|] eqn:Eu; [|split; cbn; [exact H1|discriminate]..].
      destruct (answer t req) as [[st b]|e] eqn:Ea; [|split; cbn; [exact H1|discriminate]].
      assert (T : forall req' q' b', In (req', q', (200, b')) (lp_trace p ++ [(req, q, (st, b))]) -> b' = body req' /\ exists u, scrape_link u = Some (Ok (req', q'))).
      { intros req' q' b' X. apply in_app_or in X as [X|[X|[]]]; [now apply H1|]. injection X as <- <- -> <-. split; [now apply (Same t)|now exists u]. }
      destruct (Z.eqb_spec st 200) as [->|]; [destruct (can q) eqn:Ec|]; cbn [snd]; split; cbn [lp_trace lp_open]; auto; try discriminate.
      intros q' b' off' X. injection X as <- <- <-. split; [lia|]. split; [exact Ec|]. exists req. apply in_or_app. right. now left.
  Qed.

  Lemma state_step t n d ps k p : Forall honest ps -> nth_error ps k = Some p -> state_of d ps ->
    state_of (fst (lp_step (answer t) can n d p)) (upd ps k (fun _ => snd (lp_step (answer t) can n d p))).
  Proof.
    intros Hs N St. pose proof (proj1 (Forall_forall _ _) Hs p (nth_error_In _ _ N)) as Hp. pose proof (honest_step t n d p Hp) as Hp'.
    assert (Hs' : Forall honest (upd ps k (fun _ => snd (lp_step (answer t) can n d p)))).
    { rewrite Forall_forall in *. intros z Z0. destruct (nth_upd ps k p _ N z Z0) as [->|Z1]; auto. }
    (* a step that changes neither the file nor what is received or written *)
    assert (Quiet : forall p', incl (lp_trace p) (lp_trace p') ->
       (forall req b, In (req, path, (200, b)) (lp_trace p') -> received ps path b \/ can path = false) ->
       (forall c off, lp_open p = Some (path, c, off) -> lp_open p' = Some (path, c, off) \/ off = slen c) ->
       state_of d (upd ps k (fun _ => p'))).
    { intros p' I1 I2 I3. destruct St as [[E C]|(C & f & c & j & Ed & R & L & G & K)].
      - left. split; [exact E|]. destruct C as [C|C]; [now left|]. destruct (can path) eqn:Ec; [right|now left]. intros b Rb.
        destruct (received_back ps k p p' path b N Rb) as [Rb'|(req & Rb')]; [exact (C b Rb')|]. destruct (I2 _ _ Rb') as [X|X]; [exact (C b X)|congruence].
      - right. split; [exact C|]. exists f, c, j. split; [exact Ed|]. split; [exact (received_grow ps k p p' path c N I1 R)|]. split; [exact L|]. split; [exact G|].
        destruct K as [K|(q & Q & Oq)]; [now left|]. destruct (upd_keep ps k p p' q N Q) as [->|Q']; [|right; now exists q].
        destruct (I3 _ _ Oq) as [X|X]; [right; exists p'; split; [now apply (upd_in ps k p)|exact X]|now left]. }
    unfold lp_step in *. destruct (lp_stop p) eqn:Es; [cbn [fst snd]; apply Quiet; [apply incl_refl| |auto]|].
    { intros req b X. left. exists p, req. split; [now apply nth_error_In in N|exact X]. }
    destruct (lp_open p) as [[[q b] off]|] eqn:Eo.
    - destruct (Nat.eqb_spec off (slen b)) as [->|Nb]; cbn [fst snd] in *.
      + apply Quiet; cbn [lp_trace lp_open]; [apply incl_refl| |].
        * intros req c X. left. exists p, req. split; [now apply nth_error_In in N|exact X].
        * intros c off X. injection X as <- <- <-. now right.
      + destruct (proj2 Hp _ _ _ Eo) as (L & Cq & req & Rq).
        destruct (String.eqb_spec path q) as [<-|Nq].
        * (* a piece of the file [path] *)
          assert (Rb : received ps path b) by (exists p, req; split; [now apply nth_error_In in N|exact Rq]).
          destruct St as [[E C]|(C & f & c & j & Ed & R & Lf & G & K)].
          { exfalso. destruct C as [C|C]; [congruence|exact (C b Rb)]. }
          pose proof (one_body ps b c Hs Rb R) as <-. rewrite Ed.
          set (s := stake (S n) (sdrop off b)) in *. assert (Ls : slen s = Nat.min (S n) (slen b - off)) by (unfold s; now rewrite slen_stake, slen_sdrop).
          right. split; [exact C|]. exists (write_at off s f), b.
          assert (Gs : forall i, (off <= i < off + slen s)%nat -> String.get i (write_at off s f) = String.get i b).
          { intros i Hi. rewrite get_write by lia. destruct (Nat.ltb_spec i off); [lia|]. unfold s. rewrite get_stake by lia. rewrite get_sdrop. f_equal. lia. }
          assert (Gj : forall i, (i < j)%nat -> (i < off)%nat \/ (off + slen s <= i)%nat -> String.get i (write_at off s f) = String.get i b).
          { intros i Hj [Hi|Hi]; [|rewrite get_write_after by lia; now apply G]. rewrite get_write by lia. destruct (Nat.ltb_spec i off); [|lia].
            pose proof (G i Hj) as Gi. assert (Qi : String.get i b <> None) by (apply get_len; lia). rewrite <- Gi in Qi. apply get_len in Qi.
            destruct (Nat.ltb_spec i (slen f)); [exact Gi|lia]. }
          assert (All : forall i, (i < j)%nat -> String.get i (write_at off s f) = String.get i b).
          { intros i Hi. destruct (Nat.lt_ge_cases i off); [apply Gj; [exact Hi|now left]|]. destruct (Nat.lt_ge_cases i (off + slen s)); [apply Gs; lia|apply Gj; [exact Hi|now right]]. }
          assert (Open : forall p', lp_open p' = Some (path, b, (off + slen s)%nat) -> incl (lp_trace p) (lp_trace p') ->
            exists k0, write path (write_at off s f) d path = Some (write_at off s f) /\ received (upd ps k (fun _ => p')) path b /\ (slen (write_at off s f) <= slen b)%nat /\
             (forall i, (i < k0)%nat -> String.get i (write_at off s f) = String.get i b) /\ (k0 = slen b \/ exists r, In r (upd ps k (fun _ => p')) /\ lp_open r = Some (path, b, k0))).
          { intros p' Op Ip. assert (W1 : write path (write_at off s f) d path = Some (write_at off s f)) by (unfold write; now rewrite String.eqb_refl).
            assert (W2 : received (upd ps k (fun _ => p')) path b) by exact (received_grow ps k p p' path b N Ip Rb).
            assert (W3 : (slen (write_at off s f) <= slen b)%nat) by (rewrite slen_write; lia).
            destruct K as [->|(r & Rr & Or)]; [exists (slen b); auto 6|].
            destruct (upd_keep ps k p p' r N Rr) as [->|Rr']; [|exists j; split; [exact W1|]; split; [exact W2|]; split; [exact W3|]; split; [exact All|]; right; now exists r].
            rewrite Eo in Or. injection Or as <-. exists (off + slen s)%nat. split; [exact W1|]. split; [exact W2|]. split; [exact W3|]. split.
            - intros i Hi. destruct (Nat.lt_ge_cases i off); [now apply All|apply Gs; lia].
            - right. exists p'. split; [now apply (upd_in ps k p)|exact Op]. }
          destruct (Open (MkLp (lp_links p) (Some (path, b, (off + slen s)%nat)) (lp_trace p) None) eq_refl (incl_refl _)) as (k0 & X). now exists k0.
        * assert (Wd : write q (write_at off (stake (S n) (sdrop off b)) match d q with Some old => old | None => EmptyString end) d path = d path).
          { unfold write. destruct (String.eqb_spec path q); [congruence|reflexivity]. }
          assert (St' := Quiet (MkLp (lp_links p) (Some (q, b, (off + slen (stake (S n) (sdrop off b)))%nat)) (lp_trace p) None)).
          cbn [lp_trace lp_open] in St'. specialize (St' (incl_refl _)).
          unfold state_of in *. rewrite Wd. apply St'; [intros r c X; left; exists p, r; split; [now apply nth_error_In in N|exact X]|].
          intros c o X. congruence.
    - destruct (lp_links p) as [|u r] eqn:El; cbn [fst snd] in *.
      { apply Quiet; [apply incl_refl| |intros; congruence]. intros req b X. left. exists p, req. split; [now apply nth_error_In in N|exact X]. }
      assert (Same_trace : forall x, state_of d (upd ps k (fun _ => MkLp r None (lp_trace p) x))).
      { intros x. apply Quiet; cbn [lp_trace lp_open]; [apply incl_refl| |intros; congruence].
        intros req b X. left. exists p, req. split; [now apply nth_error_In in N|exact X]. }
      destruct (scrape_link u) as [[[req q]|e]|] eqn:Eu; cbn [fst snd] in *; try apply Same_trace.
      destruct (answer t req) as [[st b]|e] eqn:Ea; cbn [fst snd] in *; [|apply Same_trace].
      assert (Inc : incl (lp_trace p) (lp_trace p ++ [(req, q, (st, b))])) by apply incl_appl, incl_refl.
      destruct (Z.eqb_spec st 200) as [->|Nst]; [destruct (can q) eqn:Ec|]; cbn [fst snd] in *.
      + destruct (String.eqb_spec path q) as [<-|Nq].
        * right. split; [exact Ec|]. exists EmptyString, b, 0%nat. split; [unfold write; now rewrite String.eqb_refl|].
          set (p' := MkLp r (Some (path, b, 0%nat)) (lp_trace p ++ [(req, path, (200, b))]) None) in *.
          split; [exists p', req; split; [now apply (upd_in ps k p)|apply in_or_app; right; now left]|]. split; [cbn; lia|]. split; [intros j Hj; lia|].
          right. exists p'. split; [now apply (upd_in ps k p)|reflexivity].
        * assert (Wd : write q EmptyString d path = d path) by (unfold write; destruct (String.eqb_spec path q); [congruence|reflexivity]).
          assert (St' := Quiet (MkLp r (Some (q, b, 0%nat)) (lp_trace p ++ [(req, q, (200, b))]) None)). cbn [lp_trace lp_open] in St'. specialize (St' Inc).
          unfold state_of in *. rewrite Wd. apply St'; [|intros; congruence].
          intros r' c X. apply in_app_or in X as [X|[X|[]]]; [left; exists p, r'; split; [now apply nth_error_In in N|exact X]|congruence].
      + apply Quiet; cbn [lp_trace lp_open]; [exact Inc| |intros; congruence].
        intros r' c X. apply in_app_or in X as [X|[X|[]]]; [left; exists p, r'; split; [now apply nth_error_In in N|exact X]|]. right. congruence.
      + apply Quiet; cbn [lp_trace lp_open]; [exact Inc| |intros; congruence].
        intros r' c X. apply in_app_or in X as [X|[X|[]]]; [left; exists p, r'; split; [now apply nth_error_In in N|exact X]|]. congruence.
  Qed.

  Lemma state_run sched : forall t d ps, Forall honest ps -> state_of d ps ->
    Forall honest (snd (downloads answer can t sched d ps)) /\ state_of (fst (downloads answer can t sched d ps)) (snd (downloads answer can t sched d ps)).
  Proof.
    induction sched as [|[k n] sched IH]; intros t d ps H S0; [auto|]. cbn [downloads]. destruct (nth_error ps k) as [p|] eqn:N; [|now apply IH].
    pose proof (state_step t n d ps k p H N S0) as S1. pose proof (honest_step t n d p (proj1 (Forall_forall _ _) H p (nth_error_In _ _ N))) as Hp.
    destruct (lp_step (answer t) can n d p) as [d' p']. cbn [fst snd] in *. apply IH; [|exact S1].
    rewrite Forall_forall in *. intros z Z0. destruct (nth_upd ps k p _ N z Z0) as [->|Z1]; auto.
  Qed.
End One.

(** ** C119 *)
(** Any number of downloads at once, each with its own list of links, in any interleaving,
    where good answers to the same request are the same text (failures may come and go): at
    any moment a file that no process is writing holds the complete answer if one was
    received for it and its path can be written, and is as it was before otherwise. *)
Theorem C119_complete : forall answer body can links d schedule path,
  (forall t req b, answer t req = Ok (200, b) -> b = body req) ->
  let '(d', ps) := downloads answer can 0 schedule d (map begin links) in
  ~ being_written ps path ->
  (can path = true -> forall b, received ps path b -> d' path = Some b) /\
  (can path = false \/ (forall b, ~ received ps path b) -> d' path = d path).
Proof.
  intros answer body can links d schedule path Same.
  assert (H0 : Forall (honest can body) (map begin links)).
  { rewrite Forall_forall. intros p Hp. apply in_map_iff in Hp as (l & <- & _). split; cbn; [intros req q b []|discriminate]. }
  assert (S0 : state_of can d path d (map begin links)).
  { left. split; [reflexivity|]. right. intros b (p & req & Hp & T). apply in_map_iff in Hp as (l & <- & _). destruct T. }
  destruct (state_run answer can body Same d path schedule 0 d (map begin links) H0 S0) as [H1 S1].
  destruct (downloads answer can 0 schedule d (map begin links)) as [d' ps]. cbn [fst snd] in *. intros Nw.
  destruct S1 as [[E C]|(C & f & c & k & Ed & R & L & G & K)].
  - split; [|auto]. intros Cp b Rb. destruct C as [C|C]; [congruence|now elim (C b)].
  - assert (F : f = c).
    { destruct K as [->|(p & P & Op)]; [|elim Nw; now exists p, c, k]. apply get_correct. intros j. destruct (Nat.lt_ge_cases j (slen c)) as [Hj|Hj]; [now apply G|].
      destruct (String.get j f) eqn:E1; [exfalso; assert (j < slen f)%nat by (apply get_len; congruence); lia|].
      destruct (String.get j c) eqn:E2; [exfalso; assert (j < slen c)%nat by (apply get_len; congruence); lia|reflexivity]. }
    subst f. split; [intros _ b Rb; rewrite Ed; f_equal; symmetry; exact (one_body can body path ps b c H1 Rb R)|].
    intros [X|X]; [congruence|now elim (X c)].
Qed.
Print Assumptions C119_complete.

(** The condition on the answers is needed: if the answer to a request changes in between,
    two processes that write the same file at the same time leave a mixture. *)
Definition two_links : list (list string) := [["http://tenhou.net/0/?log=g"]; ["http://tenhou.net/0/?log=g"]]%string.
Theorem C119_needs_same_answers : exists answer schedule d' ps,
  downloads answer (fun _ => true) 0 schedule (fun _ => None) (map begin two_links) = (d', ps) /\
  ~ being_written ps "processed/2021/g.log" /\
  received ps "processed/2021/g.log" "first answer" /\ received ps "processed/2021/g.log" "second" /\
  d' "processed/2021/g.log"%string = Some "secondanswer"%string.
Proof.
  exists (fun t _ => Ok (200, if Nat.eqb t 0 then "first answer" else "second")%string),
    [(0, 0); (1, 0); (0, 20); (1, 20); (0, 0); (1, 0)]%nat. do 2 eexists. split; [reflexivity|]. split; [|split; [|split]].
  - intros (p & b & off & P & E). vm_compute in P. destruct P as [<-|[<-|[]]]; discriminate E.
  - eexists _, _. split; [left; reflexivity|]. left. reflexivity.
  - eexists _, _. split; [right; left; reflexivity|]. left. reflexivity.
  - reflexivity.
Qed.
Print Assumptions C119_needs_same_answers.

(** Non-vacuity: two processes store the same answer at the same time, the second empties
    the file when the first has written two characters; in between the file has a gap. *)
Definition same_answer : nat -> string -> res (Z * string) := fun t _ => if Nat.eqb t 9 then Ok (404, "gone"%string) else Ok (200, "game"%string).
Definition side_by_side (n : nat) := downloads same_answer (fun _ => true) 0
  (firstn n [(0, 0); (0, 1); (1, 0); (0, 1); (1, 0); (0, 0); (1, 5); (1, 0)]%nat) (fun _ => None) (map begin two_links).
Example C119_example : (forall t req b, same_answer t req = Ok (200, b) -> b = "game"%string) /\
  fst (side_by_side 4) "processed/2021/g.log"%string = Some (String zero (String zero "me"))%string /\
  ~ being_written (snd (side_by_side 8)) "processed/2021/g.log" /\
  fst (side_by_side 8) "processed/2021/g.log"%string = Some "game"%string.
Proof.
  split; [intros t req b; unfold same_answer; destruct (Nat.eqb t 9); intros H; [discriminate H|now injection H]|]. split; [reflexivity|]. split; [|reflexivity].
  intros (p & b & off & P & E). vm_compute in P. destruct P as [<-|[<-|[]]]; discriminate E.
Qed.
