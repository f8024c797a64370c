(** C116: the batch numbers in the messages of the data loader (model: LoaderLog.v). *)
From Coq Require Import ZArith List Bool String Lia PeanoNat.
From Verif Require Import Base DataLoader DataLemmas LoaderLog PropsData.
Import ListNotations.

Section Numbers.
  Context {G : Type}.
  Variable proc : string -> res G.
  Local Notation delivered := (fun o : res (list G) => match o with Ok _ => true | Err _ => false end).

  (** The places of the delivered batches among the requests, counted from [k]. *)
  Fixpoint places (k : nat) (outcomes : list (res (list G))) : list nat :=
    match outcomes with
    | [] => []
    | o :: r => if delivered o then k :: places (S k) r else places (S k) r
    end.

  Lemma next_counts d o d' : dl_next proc d = (o, d') -> dl_count d' = S (dl_count d).
  Proof.
    unfold dl_next. destruct (Nat.leb _ _); [intros H; injection H as _ <-; reflexivity|].
    destruct (fill _ _ _ _) as [x n]. intros H. injection H as _ <-. reflexivity.
  Qed.
  Lemma session_numbers calls : forall d os ms d', session proc d calls = (os, ms, d') -> ms = places (S (dl_count d)) os.
  Proof.
    induction calls as [|[|] r IH]; intros d os ms d' H; cbn [session] in H.
    - injection H as <- <- _. reflexivity.
    - unfold next_logged in H. destruct (dl_next proc d) as [o e] eqn:N. pose proof (next_counts _ _ _ N) as C.
      destruct o as [b|x]; destruct (session proc e r) as [[os' ms'] e'] eqn:E; injection H as <- <- _; cbn [places app];
        rewrite (IH _ _ _ _ E), C; reflexivity.
    - rewrite (IH _ _ _ _ H). reflexivity.
  Qed.

  Lemma pass_numbers fuel : forall d ms d', pass_logged proc fuel d = Some (ms, d') ->
    exists batches, iterate proc fuel d = Some (batches, Ok tt, d') /\
    ms = seq (S (dl_count d)) (List.length batches) /\ dl_count d' = (dl_count d + S (List.length batches))%nat.
  Proof.
    induction fuel as [|f IH]; intros d ms d' H; [discriminate H|]. cbn [pass_logged iterate] in *. unfold next_logged in H.
    destruct (dl_next proc d) as [o e] eqn:N. pose proof (next_counts _ _ _ N) as C. destruct o as [b|x].
    - destruct (pass_logged proc f e) as [[m e']|] eqn:P; [|discriminate H]. injection H as <- <-.
      destruct (IH _ _ _ P) as (bs & -> & -> & D). exists (b :: bs). cbn [List.length seq app]. rewrite C. repeat split. lia.
    - destruct x; try discriminate H. injection H as <- <-. exists []. cbn [List.length seq]. repeat split. lia.
  Qed.
End Numbers.

(** In any history of requests and resets of a new loader, the number in the message of a
    delivered batch is its place among all requests so far, those that ended a pass
    included; resets do not count and do not restart the numbers. *)
Theorem C116_numbers : forall (G : Type) (proc : string -> res G) files bs calls outcomes messages d',
  session proc (dl_init files bs) calls = (outcomes, messages, d') -> messages = places 1 outcomes.
Proof. intros G proc files bs calls os ms d' H. exact (session_numbers proc calls _ _ _ _ H). Qed.
Print Assumptions C116_numbers.

(** Passes over the same files: when a pass delivers B batches, the messages of the pass
    with index k (from 0) carry the numbers from k * (B + 1) + 1 on, one after the other:
    every pass after the first starts one number late. *)
Theorem C116_passes : forall (G : Type) (proc : string -> res G) files bs fuel n all,
  passes_logged proc fuel n (dl_init files bs) = Some all ->
  exists B, List.length all = n /\ forall k, (k < n)%nat ->
    nth_error all k = Some (seq (k * (B + 1) + 1) B) /\
    exists batches d', iterate proc fuel (dl_init files bs) = Some (batches, Ok tt, d') /\ List.length batches = B.
Proof.
  intros G proc files bs fuel n all H. destruct n as [|n].
  { exists 0%nat. injection H as <-. split; [reflexivity|]. intros k K. lia. }
  assert (X : exists bt d0, iterate proc fuel (dl_init files bs) = Some (bt, Ok tt, d0)).
  { cbn [passes_logged] in H. destruct (pass_logged proc fuel _) as [[m d']|] eqn:P; [|discriminate H].
    destruct (pass_numbers proc fuel _ _ _ P) as (bt & I & _). now exists bt, d'. }
  destruct X as (bt & d0 & I). exists (List.length bt).
  assert (Main : forall n d all, dl_files d = files -> dl_cur d = 0%nat -> dl_bs d = bs -> passes_logged proc fuel n d = Some all ->
    List.length all = n /\ forall k, (k < n)%nat -> nth_error all k = Some (seq (S (dl_count d + k * (List.length bt + 1))) (List.length bt))).
  { clear n all H. induction n as [|n IH]; intros d all A B C H; cbn [passes_logged] in H; [injection H as <-; split; [reflexivity|intros k K; lia]|].
    destruct (pass_logged proc fuel d) as [[m d']|] eqn:P; [|discriminate H].
    destruct (passes_logged proc fuel n (dl_reset d')) as [r|] eqn:R; [|discriminate H]. injection H as <-.
    destruct (pass_numbers proc fuel _ _ _ P) as (bt' & I' & -> & D).
    pose proof (iterate_same proc fuel d (dl_init files bs) A B C) as T. rewrite I, I' in T. cbn in T. injection T as ->.
    pose proof (iterate_static proc fuel d _ _ _ I') as [S1 S2].
    destruct (IH (dl_reset d') r) as [L N]; [cbn; congruence|reflexivity|cbn; congruence|exact R|].
    split; [cbn [List.length]; now rewrite L|]. intros [|k] K; cbn [nth_error]; [f_equal; f_equal; lia|].
    rewrite (N k ltac:(lia)). cbn [dl_reset dl_count]. rewrite D. do 2 f_equal. lia. }
  destruct (Main (S n) (dl_init files bs) all eq_refl eq_refl eq_refl H) as [L N]. split; [exact L|]. intros k K. split; [|now exists bt, d0].
  rewrite (N k K). cbn [dl_init dl_count]. do 2 f_equal. lia.
Qed.
Print Assumptions C116_passes.

Definition log_files : list string := ["a"; "bad"; "bb"; "cccc"; "bad"]%string.
(** Non-vacuity: two passes over five files, two of them skipped, in batches of two: the
    batches are numbered 1 and 2, then 4 and 5.  A reset in the middle of a pass does not
    restart the numbers either. *)
Example C116_example :
  passes_logged demo_proc 6 2 (dl_init log_files 2) = Some [[1; 2]; [4; 5]]%nat /\
  snd (fst (session demo_proc (dl_init log_files 2) [Next; Reset; Next; Next; Next; Next])) = [1; 2; 3]%nat.
Proof. split; reflexivity. Qed.
