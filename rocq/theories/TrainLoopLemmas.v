From Coq Require Import ZArith List Bool String Permutation Lia Arith.
From Verif Require Import Base Process VecLemmas DataLoader SpecData DataLemmas Tensor TrainLoop SpecTrainLoop.
Import ListNotations.
Open Scope Z_scope.

(** ** Selections *)
Lemma pick_map {A B} (f : A -> B) rows idx sel : Forall2 (fun i r => nth_error rows i = Some r) idx sel -> pick (map f rows) idx = Ok (map f sel).
Proof.
  induction 1 as [|i r idx sel H _ IH]; [reflexivity|]. unfold pick in *. cbn [mapM map]. rewrite nth_error_map, H. cbn [option_map bind].
  rewrite IH. reflexivity.
Qed.

Lemma some_rows {A} (rows : list A) idx : Forall (fun i => (i < List.length rows)%nat) idx -> exists sel, Forall2 (fun i r => nth_error rows i = Some r) idx sel.
Proof.
  induction 1 as [|i idx H _ (sel & IH)]; [exists []; constructor|].
  destruct (nth_error rows i) as [r|] eqn:E; [|apply nth_error_None in E; lia]. exists (r :: sel). now constructor.
Qed.

Lemma perm_firstn n size l : Permutation l (seq 0 n) -> (size < n)%nat ->
  NoDup (firstn size l) /\ List.length (firstn size l) = size /\ Forall (fun i => (i < n)%nat) (firstn size l).
Proof.
  intros P H. assert (L : List.length l = n) by (apply Permutation_length in P; now rewrite seq_length in P).
  assert (N : NoDup l) by (apply (Permutation_NoDup (Permutation_sym P)), seq_NoDup).
  split; [|split].
  - rewrite <- (firstn_skipn size l) in N. clear - N. revert N. generalize (firstn size l), (skipn size l). intros x y.
    induction x as [|i x IH]; intros N; [constructor|]. inversion N as [|? ? I N' E]; subst. constructor; [|apply IH, N'].
    intros J. apply I, in_app_iff. now left.
  - rewrite firstn_length. lia.
  - apply Forall_forall. intros i I. assert (J : In i l) by (rewrite <- (firstn_skipn size l); apply in_app_iff; now left).
    apply (Permutation_in _ P), in_seq in J. lia.
Qed.

Lemma head_input_ok size rows perm : (forall n, Permutation (perm n) (seq 0 n)) ->
  (rows = [] /\ head_input true size perm (columns_of rows) = Ok None) \/
  (rows <> [] /\ exists sel, selection size rows sel /\ head_input true size perm (columns_of rows) = Ok (Some (columns_of sel))).
Proof.
  intros P. unfold head_input. assert (L : List.length (c_tokens (columns_of rows)) = List.length rows) by apply map_length.
  rewrite L. destruct (Nat.eqb_spec (List.length rows) 0) as [Z|NZ].
  { left. destruct rows; [auto|discriminate Z]. }
  right. split; [intros ->; now apply NZ|].
  cbn [andb]. destruct (Nat.ltb_spec size (List.length rows)) as [H|H].
  - destruct (perm_firstn _ size _ (P (List.length rows)) H) as (N & L' & F). destruct (some_rows rows _ F) as (sel & S).
    exists sel. split; [right; split; [exact H|]; exists (firstn size (perm (List.length rows))); auto|].
    unfold subsample, columns_of. cbn [c_tokens c_x1 c_x2 c_x3 c_mask c_y c_player].
    rewrite !(pick_map _ _ _ _ S). reflexivity.
  - exists rows. split; [now left|reflexivity].
Qed.

Lemma Forall2_at {A B} (R : A -> B -> Prop) l r : forall i x y, Forall2 R l r -> nth_error l i = Some x -> nth_error r i = Some y -> R x y.
Proof.
  intros i x y F. revert i. induction F as [|x0 y0 l r H _ IH]; intros [|i] E1 E2; cbn in *; try discriminate; [congruence|]. now apply (IH i).
Qed.
Lemma Forall2_put {A B} (R : A -> B -> Prop) l r : forall i x y, Forall2 R l r -> nth_error l i = Some x -> R x y ->
  Forall2 R l (firstn i r ++ y :: skipn (S i) r).
Proof.
  intros i x y F. revert i. induction F as [|x0 y0 l r H F IH]; intros [|i] E1 Q; cbn [nth_error] in *; try discriminate.
  - injection E1 as ->. cbn [firstn skipn app]. now constructor.
  - cbn [firstn skipn app]. constructor; [exact H|]. now apply IH.
Qed.

Section Loop.
  Context (a : agent) (proc : string -> res game) (rnd : Z -> nat -> list nat).
  Context (RND : random_orders rnd).

  Lemma head_step_ok s h rows s' : head_step rnd s (h, columns_of rows) = Ok s' -> ready s ->
    exists evs, fed h rows (t_sched s) evs /\ t_trace s' = t_trace s ++ evs /\ t_sched s' = t_sched s + count evs /\
      ready s' /\ t_val s' = t_val s /\ (t_loss s' = None <-> t_loss s = None /\ rows = []).
  Proof.
    intros H [E Em]. unfold head_step in H. rewrite Em in H. change sample_size with row_limit in H.
    destruct (head_input_ok row_limit rows (rnd (t_step s)) (RND (t_step s))) as [[-> X]|(N & sel & Hs & X)]; rewrite X in H; cbn [bind] in H; injection H as <-.
    - exists []. rewrite app_nil_r. unfold count, ready. cbn. repeat split; try lia; try tauto. left. auto.
    - exists [Update (t_sched s) Training h (columns_of sel)]. cbn [t_trace t_sched t_step t_val t_loss]. split; [right; split; [exact N|]; now exists sel|].
      unfold count, ready. cbn. repeat split; try lia; try tauto; try discriminate.
  Qed.

  Lemma due_ok bs k : 0 < bs -> (validates bs k = true <-> due bs k).
  Proof.
    intros B. unfold validates, due. rewrite Z.ltb_lt. pose proof (Z.div_mod (Z.of_nat k * bs) 1000 ltac:(lia)) as D.
    pose proof (Z.mod_pos_bound (Z.of_nat k * bs) 1000 ltac:(lia)) as M. set (x := Z.of_nat k * bs) in *. split.
    - intros H. exists (x / 1000). lia.
    - intros (j & H). assert (j <= x / 1000) by (apply Z.div_le_lower_bound; lia). lia.
  Qed.

  Lemma whole_ok rows : head_input false sample_size (seq 0) (columns_of rows) = Ok (match rows with [] => None | _ => Some (columns_of rows) end).
  Proof. destruct rows; reflexivity. Qed.
  Lemma val_losses_ok b t : prepare_batches a b = Ok t -> val_losses a b = Ok (whole During (t_during t) ++ whole Discard (t_discard t) ++ whole Post (t_post t)).
  Proof.
    intros H. unfold val_losses. rewrite H. cbn [bind]. unfold heads. cbn [mapM snd fst]. rewrite !whole_ok. cbn [bind].
    destruct (t_during t), (t_discard t), (t_post t); reflexivity.
  Qed.
  Lemma val_losses_inv b l : val_losses a b = Ok l -> evaluated a b l.
  Proof.
    intros H. destruct (prepare_batches a b) as [t|e] eqn:P.
    - rewrite (val_losses_ok _ _ P) in H. injection H as <-. now exists t.
    - unfold val_losses in H. rewrite P in H. discriminate H.
  Qed.
  Lemma Forall2_imp_ {A B} (R R' : A -> B -> Prop) l r : (forall x y, R x y -> R' x y) -> Forall2 R l r -> Forall2 R' l r.
  Proof. intros H F. induction F; constructor; auto. Qed.

  (** Loaders that differ at most in their batch counter from fresh ones *)
  Definition rested (bs : Z) (files : list string) (d : @loader) : Prop := dl_files d = files /\ dl_cur d = 0%nat /\ dl_bs d = bs.

  Lemma estimate_ok fuel bs val d l ls v : 0 < bs -> rested bs val d -> estimate_loss proc (val_losses a) fuel bs d = Some (l, Ok ls, v) ->
    validation a proc bs val ls /\ rested bs val v.
  Proof.
    intros B (R1 & R2 & R3) H. unfold estimate_loss in H.
    destruct (val_loop proc (val_losses a) fuel bs 0 d) as [[[l' [[|x xs]|e']] e]|] eqn:V; try discriminate H.
    destruct (val_static proc (val_losses a) _ _ _ _ _ _ _ V) as [S1 S2].
    injection H as <- <- <-. split; [|unfold rested, dl_reset; cbn; repeat split; congruence].
    pose proof (val_same proc (val_losses a) fuel bs 0 d (dl_init val bs) R1 R2 R3) as Y. rewrite V in Y.
    destruct (val_loop proc (val_losses a) fuel bs 0 (dl_init val bs)) as [[[l2 o2] e2]|] eqn:V2; [|discriminate Y]. injection Y as <- <-.
    destruct (val_exact proc (val_losses a) fuel bs 0 _ _ _ _ V2) as [(parts & F & E) X].
    destruct (iterate_ends proc (List.length val) (dl_init val bs)) as ([[all o] d2] & I & _); [cbn; lia|cbn; lia|].
    exists all, o, d2, l', parts. split; [exact I|]. split.
    - destruct (X _ _ _ _ I) as (more & M & C). exists more. split; [exact M|]. split; [|destruct C as [[C _]|[_ C]]; [now left|right; lia]].
      destruct (val_bound proc (val_losses a) fuel bs ltac:(lia) 0 _ _ _ _ V2) as [->|[W|W]].
      + change (Z.of_nat (List.length (@nil (list game)))) with 0. lia.
      + change (Z.of_nat 0) with 0 in W. lia.
      + rewrite W. change (Z.of_nat 1) with 1. lia.
    - split; [exact (Forall2_imp_ _ _ _ _ val_losses_inv F)|]. split; [exact E|discriminate].
  Qed.

  (** The three heads of a batch *)
  Lemma heads_ok s t s' : foldM (head_step rnd) s (heads t) = Ok s' -> ready s ->
    exists d e f, fed During (t_during t) (t_sched s) d /\ fed Discard (t_discard t) (t_sched s + count d) e /\
      fed Post (t_post t) (t_sched s + count d + count e) f /\ t_trace s' = t_trace s ++ d ++ e ++ f /\
      t_sched s' = t_sched s + count d + count e + count f /\ ready s' /\ t_val s' = t_val s /\
      (t_loss s' = None <-> t_loss s = None /\ t_during t = [] /\ t_discard t = [] /\ t_post t = []).
  Proof.
    intros H E. unfold heads in H. cbn [foldM] in H. apply bind_ok in H as (s1 & H1 & H). apply bind_ok in H as (s2 & H2 & H). apply bind_ok in H as (s3 & H3 & H).
    injection H as ->.
    destruct (head_step_ok _ _ _ _ H1 E) as (d & D1 & D2 & D3 & D4 & D5 & D6).
    destruct (head_step_ok _ _ _ _ H2 D4) as (e & E1 & E2 & E3 & E4 & E5 & E6).
    destruct (head_step_ok _ _ _ _ H3 E4) as (f & F1 & F2 & F3 & F4 & F5 & F6).
    exists d, e, f. rewrite E3, D3 in F1. rewrite D3 in E1. split; [exact D1|]. split; [exact E1|]. split; [exact F1|].
    split; [now rewrite F2, E2, D2, !app_assoc_reverse|]. split; [lia|]. split; [exact F4|]. split; [congruence|].
    rewrite F6, E6, D6. tauto.
  Qed.

  Lemma batch_ok fuel bs val iter s k b s' : 0 < bs -> batch_step a proc rnd fuel bs iter s (k, b) = Ok s' -> ready s -> rested bs val (t_val s) ->
    exists t d e f v, prepare_batches a b = Ok t /\ fed During (t_during t) (t_sched s) d /\ fed Discard (t_discard t) (t_sched s + count d) e /\
      fed Post (t_post t) (t_sched s + count d + count e) f /\ validated a proc bs val iter k v /\
      t_trace s' = t_trace s ++ d ++ e ++ f ++ v /\ t_sched s' = t_sched s + count d + count e + count f /\ ready s' /\ rested bs val (t_val s').
  Proof.
    intros B H E Rv. unfold batch_step in H. apply bind_ok in H as (t & P & H). apply bind_ok in H as (s1 & F & H).
    destruct (heads_ok _ _ _ F E) as (d & e & f & D & E' & F' & T & S1 & S2 & Sv & _). exists t, d, e, f. rewrite <- Sv in Rv.
    destruct (validates bs k) eqn:V.
    - apply due_ok in V; [|exact B]. cbn [set_mode t_val t_loss] in H.
      destruct (estimate_loss proc (val_losses a) fuel bs (t_val s1)) as [[[l [n|er]] v]|] eqn:Es; try discriminate H. destruct (estimate_ok _ _ _ _ _ _ _ B Rv Es) as [Va Rv'].
      destruct (t_loss s1) as [x|]; [|discriminate H]. injection H as <-. exists [Validate iter k Evaluation n].
      repeat (split; [assumption|]). split; [left; split; [exact V|]; now exists n|]. cbn [set_mode t_trace t_sched t_step t_mode]. rewrite T, !app_assoc_reverse. split; [reflexivity|]. split; [exact S1|]. split; [split; [exact (proj1 S2)|reflexivity]|exact Rv'].
    - assert (V' : ~ due bs k) by (intros X; apply due_ok in X; [congruence|exact B]).
      injection H as <-. exists []. repeat (split; [assumption|]). split; [now right|]. rewrite app_nil_r. auto.
  Qed.

  Lemma batches_ok fuel bs val iter : 0 < bs -> forall batches k s s',
    foldM (batch_step a proc rnd fuel bs iter) s (combine (seq k (List.length batches)) batches) = Ok s' -> ready s -> rested bs val (t_val s) ->
    exists evs, iteration_trace a proc bs val iter k batches (t_sched s) evs (t_sched s') /\ t_trace s' = t_trace s ++ evs /\ ready s' /\ rested bs val (t_val s').
  Proof.
    intros B. induction batches as [|b batches IH]; intros k s s' H E Rv.
    - cbn in H. injection H as ->. exists []. rewrite app_nil_r. split; [constructor|auto].
    - cbn [List.length seq combine foldM] in H. apply bind_ok in H as (s1 & H1 & H).
      destruct (batch_ok _ _ _ _ _ _ _ _ B H1 E Rv) as (t & d & e & f & v & P & D & E1 & F & V & T & S1 & S2 & Rv1).
      destruct (IH _ _ _ H S2 Rv1) as (evs & I & T' & S'). exists (d ++ e ++ f ++ v ++ evs). rewrite S1 in I. split; [|split; [|exact S']].
      + now apply it_batch with (t := t).
      + now rewrite T', T, !app_assoc_reverse.
  Qed.

  Lemma run_ok fuel bs train val : 0 < bs -> forall m iter ds s s',
    Forall2 (rested bs) train ds -> run_iterations a proc rnd fuel bs m iter ds s = Ok s' -> ready s -> rested bs val (t_val s) ->
    exists evs, run_trace a proc bs train val m iter (t_sched s) evs /\ t_trace s' = t_trace s ++ evs /\ ready s'.
  Proof.
    intros B. induction m as [|m IH]; intros iter ds s s' R H E Rv.
    - injection H as ->. exists []. rewrite app_nil_r. split; [constructor|auto].
    - cbn [run_iterations] in H. pose proof (Forall2_len _ _ _ R) as L. rewrite <- L in H. set (i := (iter mod List.length train)%nat) in *.
      destruct (nth_error ds i) as [d|] eqn:Ed; [|discriminate H].
      destruct (nth_error train i) as [files|] eqn:Ef.
      2:{ apply nth_error_None in Ef. assert (i < List.length ds)%nat by (apply nth_error_Some; congruence). lia. }
      assert (Rd : rested bs files d).
      { exact (Forall2_at _ _ _ i _ _ R Ef Ed). }
      apply bind_ok in H as ([s1 d1] & H1 & H). unfold iteration in H1.
      destruct (iterate proc fuel d) as [[[batches o] d']|] eqn:It; [|discriminate H1].
      apply bind_ok in H1 as (s2 & H2 & H1). apply bind_ok in H1 as ([] & Ho & H1). subst o. injection H1 as <- <-.
      destruct Rd as (R1 & R2 & R3).
      destruct (batches_ok fuel bs val iter B batches 0 s s2 H2 E Rv) as (evs & I & T & S2 & Rv2).
      apply IH in H; [| |exact S2|exact Rv2].
      2:{ pose proof (iterate_static proc fuel d _ _ _ It) as [D1 D2].
          assert (Q : rested bs files (dl_reset d')) by (unfold rested, dl_reset; cbn; split; [congruence|]; split; [reflexivity|congruence]).
          exact (Forall2_put _ _ _ i _ _ R Ef Q). }
      destruct H as (evs' & Rt & T' & S'). exists (evs ++ Save iter :: evs'). split; [|split; [|exact S']].
      + pose proof (iterate_same proc fuel d (dl_init files bs) R1 R2 R3) as Y. rewrite It in Y.
        destruct (iterate proc fuel (dl_init files bs)) as [[[bs1 o1] d2]|] eqn:It2; [|discriminate Y]. injection Y as <- <-.
        eapply rt_iter; [exact Ef|exact It2|exact I|exact Rt].
      + rewrite T'. cbn [t_trace]. rewrite T, !app_assoc_reverse. reflexivity.
  Qed.
End Loop.

(** ** Update numbers *)
Lemma numbers_app x y : update_numbers (x ++ y) = update_numbers x ++ update_numbers y.
Proof. apply flat_map_app. Qed.
Definition from (z : Z) (n : nat) : list Z := map (fun i => z + Z.of_nat i) (seq 0 n).
Lemma from_app z n m : from z (n + m) = from z n ++ from (z + Z.of_nat n) m.
Proof.
  revert z n. induction m as [|m IH]; intros z n.
  - rewrite Nat.add_0_r. cbn. now rewrite app_nil_r.
  - replace (n + S m)%nat with (S n + m)%nat by lia. rewrite IH. unfold from.
    rewrite (seq_S n), map_app. cbn [seq map Nat.add]. rewrite <- app_assoc. cbn [app]. f_equal. f_equal; [lia|].
    rewrite <- seq_shift, map_map. apply map_ext. intros k. lia.
Qed.
Lemma fed_numbers h rows z evs : fed h rows z evs -> update_numbers evs = from z (List.length evs).
Proof.
  intros [[_ ->]|(_ & sel & _ & ->)]; [reflexivity|]. cbn. f_equal. lia.
Qed.
Lemma iteration_numbers a proc bs val iter k batches z evs z' : iteration_trace a proc bs val iter k batches z evs z' ->
  exists n, update_numbers evs = from z n /\ z' = z + Z.of_nat n.
Proof.
  induction 1 as [k z|k b batches z t d e f v rest z' _ D E F V _ (n & N & Z')].
  - exists 0%nat. split; [reflexivity|lia].
  - exists (List.length d + (List.length e + (List.length f + n)))%nat. rewrite !numbers_app, (fed_numbers _ _ _ _ D), (fed_numbers _ _ _ _ E), (fed_numbers _ _ _ _ F), N.
    assert (Ev : update_numbers v = []) by (destruct V as [(_ & l & _ & ->)|[_ ->]]; reflexivity). rewrite Ev. cbn [app].
    rewrite !from_app. unfold count in *. split; [|lia]. repeat f_equal; lia.
Qed.
Lemma run_numbers a proc bs train val m iter z evs : run_trace a proc bs train val m iter z evs -> exists n, update_numbers evs = from z n.
Proof.
  induction 1 as [iter z|m iter z files fuel batches d evs z' rest _ _ I _ (n & IH)].
  - exists 0%nat. reflexivity.
  - destruct (iteration_numbers _ _ _ _ _ _ _ _ _ _ I) as (k & K & ->). exists (k + n)%nat. rewrite numbers_app, K, from_app. cbn [update_numbers flat_map app].
    now rewrite <- IH.
Qed.
