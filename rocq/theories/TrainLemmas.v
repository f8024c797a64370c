From Coq Require Import ZArith List Bool String Ascii Permutation Lia Arith.
From Verif Require Import Base Train SpecTrain.
Import ListNotations.
Open Scope Z_scope.

(** ** Strings *)
Lemma sapp_assoc (a b c : string) : ((a ++ b) ++ c = a ++ b ++ c)%string.
Proof. induction a as [|x a IH]; [reflexivity|]. cbn. now rewrite IH. Qed.

Lemma sapp_nil (a : string) : (a ++ "" = a)%string.
Proof. induction a as [|x a IH]; [reflexivity|]. cbn. now rewrite IH. Qed.

Lemma sapp_inj (a b c : string) : (a ++ b = a ++ c)%string -> b = c.
Proof. induction a as [|x a IH]; [auto|]. cbn. intros H. injection H as H. auto. Qed.

Lemma strip_prefix_app p s : strip_prefix p (p ++ s) = Some s.
Proof. induction p as [|a p IH]; [reflexivity|]. cbn. now rewrite Ascii.eqb_refl. Qed.

Lemma strip_prefix_inv p : forall s r, strip_prefix p s = Some r -> s = (p ++ r)%string.
Proof.
  induction p as [|a p IH]; intros s r H; [now injection H as ->|].
  destruct s as [|b s]; [discriminate|]. cbn in H. destruct (Ascii.eqb_spec a b); [|discriminate]. subst.
  cbn. f_equal. now apply IH.
Qed.

Lemma ends_with_spec suf : forall s, ends_with suf s = true <-> exists m, s = (m ++ suf)%string.
Proof.
  induction s as [|c s IH].
  - cbn. rewrite orb_false_r. rewrite String.eqb_eq. split.
    + intros ->. now exists EmptyString.
    + intros ([|x m] & E); [now symmetry|discriminate].
  - cbn [ends_with]. rewrite orb_true_iff, String.eqb_eq, IH. split.
    + intros [->|(m & ->)]; [now exists EmptyString|now exists (String c m)].
    + intros ([|x m] & E); [left; now symmetry|]. cbn in E. injection E as -> ->. right. now exists m.
Qed.

Lemma prefix_eq name t : ("model_" ++ name ++ "_checkpoint_iter_" ++ t)%string = (ckpt_prefix name ++ t)%string.
Proof. unfold ckpt_prefix. now rewrite !sapp_assoc. Qed.

Lemma glob_spec name f : glob_match name f = true <->
  exists mid, f = ("model_" ++ name ++ "_checkpoint_iter_" ++ mid ++ ".pt")%string.
Proof.
  unfold glob_match. split.
  - destruct (strip_prefix _ f) as [r|] eqn:E; [|discriminate]. intros H. apply ends_with_spec in H as (m & ->).
    apply strip_prefix_inv in E. exists m. now rewrite E, prefix_eq.
  - intros (mid & ->). rewrite prefix_eq, strip_prefix_app. apply ends_with_spec. now exists mid.
Qed.

Lemma digits_acc_all s : forall a z, digits_acc a s = Some z -> forall t, (match t with String c _ => digit_of c = None | _ => True end) ->
  take_digits (s ++ t) = (s, t).
Proof.
  induction s as [|c s IH]; intros a z H t T.
  - cbn. destruct t as [|c t]; [reflexivity|]. cbn. now rewrite T.
  - cbn in *. destruct (digit_of c) eqn:D; [|discriminate]. now rewrite (IH _ _ H t T).
Qed.

(** In "saved_models/" ++ name, the number found is that of the file name. *)
Lemma regex_at_numeral name s z : numeral s z ->
  regex_at name ("model_" ++ name ++ "_checkpoint_iter_" ++ s ++ ".pt") = Some z.
Proof.
  intros (N & E). unfold regex_at.
  rewrite prefix_eq, strip_prefix_app.
  rewrite (digits_acc_all s 0 z E ".pt" eq_refl). destruct s; [now elim N|exact E].
Qed.

Lemma search_cons name c s : regex_at name (String c s) = None -> regex_search name (String c s) = regex_search name s.
Proof. intros H. cbn [regex_search]. now rewrite H. Qed.

Lemma search_saved name s z : numeral s z ->
  regex_search name (save_dir ++ "/" ++ "model_" ++ name ++ "_checkpoint_iter_" ++ s ++ ".pt") = Some z.
Proof.
  intros N. pose proof (regex_at_numeral name s z N) as H.
  set (f := ("model_" ++ name ++ "_checkpoint_iter_" ++ s ++ ".pt")%string) in *.
  assert (S1 : regex_search name f = Some z).
  { destruct f as [|c f'] eqn:F; cbn [regex_search]; rewrite H; reflexivity. }
  unfold save_dir. cbn [String.append].
  do 13 (rewrite search_cons by reflexivity). exact S1.
Qed.

Lemma join_saved name mid : path_join save_dir ("model_" ++ name ++ mid) = ("saved_models/" ++ "model_" ++ name ++ mid)%string.
Proof. reflexivity. Qed.

(** ** The latest checkpoint *)
Definition better (name : string) (files : list string) (b : Z * option string) : Prop :=
  match b with
  | (z, Some p) => 0 <= z /\ exists f, In f files /\ checkpoint_of name f z /\ p = ("saved_models/" ++ f)%string
  | (z, None) => z = -1
  end /\ forall f z', In f files -> checkpoint_of name f z' -> z' <= fst b.

Lemma digits_acc_nonneg s : forall a z, 0 <= a -> digits_acc a s = Some z -> a <= z.
Proof.
  induction s as [|c s IH]; intros a z A H; cbn [digits_acc] in H; [injection H as <-; lia|].
  unfold digit_of in H. destruct ((48 <=? Z.of_nat (nat_of_ascii c)) && (Z.of_nat (nat_of_ascii c) <=? 57)) eqn:D; [|discriminate].
  apply andb_true_iff in D as [D1 D2]. apply Z.leb_le in D1, D2. apply IH in H; lia.
Qed.

Lemma numeral_nonneg s z : numeral s z -> 0 <= z.
Proof. intros (_ & E). eapply digits_acc_nonneg; [|exact E]. lia. Qed.

Lemma numeral_fun s z z' : numeral s z -> numeral s z' -> z = z'.
Proof. intros (_ & A) (_ & B). congruence. Qed.

Lemma checkpoint_mid name mid z : checkpoint_of name ("model_" ++ name ++ "_checkpoint_iter_" ++ mid ++ ".pt") z -> numeral mid z.
Proof.
  intros (s & N & E). apply sapp_inj in E. apply sapp_inj in E. apply sapp_inj in E.
  assert (mid = s); [|congruence].
  assert (L : forall a b, (a ++ ".pt" = b ++ ".pt")%string -> a = b); [|now apply L].
  clear. induction a as [|c a IH]; intros b H.
  - destruct b as [|x [|y [|w [|v b]]]]; try reflexivity; discriminate H.
  - destruct b as [|x b].
    + destruct a as [|y [|w [|v a]]]; discriminate H.
    + cbn in H. injection H as -> H. f_equal. now apply IH.
Qed.

Lemma find_latest_fold name : forall todo done b,
  (forall f, In f todo -> exists z, checkpoint_of name f z) -> better name done b ->
  better name (done ++ todo) (fold_left (latest_step name) (map (path_join save_dir) todo) b).
Proof.
  induction todo as [|f todo IH]; intros done b T B.
  - now rewrite app_nil_r.
  - cbn [map fold_left]. replace (done ++ f :: todo) with ((done ++ [f]) ++ todo) by now rewrite <- app_assoc.
    apply IH; [intros x X; apply T; now right|].
    destruct (T f (or_introl eq_refl)) as (z & s & N & F).
    assert (C : checkpoint_of name f z) by (exists s; auto).
    assert (J : path_join save_dir f = ("saved_models/" ++ f)%string) by (subst f; reflexivity).
    assert (R : regex_search name (path_join save_dir f) = Some z) by (rewrite J, F; exact (search_saved name s z N)).
    assert (U : forall z', checkpoint_of name f z' -> z' = z).
    { intros z' C'. rewrite F in C'. apply checkpoint_mid in C'. now apply (numeral_fun s). }
    unfold latest_step. rewrite R. destruct B as (B1 & B2).
    destruct (Z.ltb_spec (fst b) z) as [Q|Q].
    + split.
      * split; [exact (numeral_nonneg _ _ N)|]. exists f. rewrite J. repeat split; auto. apply in_or_app. right. now left.
      * intros g z' G C'. cbn [fst]. apply in_app_or in G as [G|[<-|[]]]; [specialize (B2 _ _ G C'); lia|rewrite (U _ C'); lia].
    + split.
      * destruct b as [y [p|]]; [|exact B1]. destruct B1 as (Y & g & G & H). split; [exact Y|]. exists g. split; [apply in_or_app; now left|exact H].
      * intros g z' G C'. apply in_app_or in G as [G|[<-|[]]]; [now apply (B2 g)|rewrite (U _ C'); lia].
Qed.

Theorem find_latest_ok name files : tidy name files ->
  (exists z f, find_latest name save_dir files = (z, Some ("saved_models/" ++ f)%string) /\ In f files /\ checkpoint_of name f z /\
     forall f' z', In f' files -> checkpoint_of name f' z' -> z' <= z) \/
  (find_latest name save_dir files = (0, None) /\ forall f z, In f files -> ~ checkpoint_of name f z).
Proof.
  intros T. unfold find_latest.
  assert (A : forall f, In f (filter (glob_match name) files) -> exists z, checkpoint_of name f z).
  { intros f F. apply filter_In in F as [F G]. apply glob_spec in G as (mid & ->). destruct (T mid F) as (z & N). exists z, mid. auto. }
  assert (B : forall f z, In f files -> checkpoint_of name f z -> In f (filter (glob_match name) files)).
  { intros f z F (s & N & E). apply filter_In. split; [exact F|]. apply glob_spec. exists s. exact E. }
  pose proof (find_latest_fold name _ [] (-1, None) A) as H. cbn [app] in H.
  destruct (fold_left (latest_step name) (map (path_join save_dir) (filter (glob_match name) files)) (-1, None)) as [z [p|]].
  - destruct H as ((Z0 & f & F & C & P) & M); [split; [reflexivity|intros f z' []]|]. left. exists z, f. subst p.
    split; [reflexivity|]. split; [apply filter_In in F; tauto|]. split; [exact C|]. intros f' z' F' C'. cbn [fst] in M. apply (M f'); [|exact C']. now apply (B f' z').
  - destruct H as (E & M); [split; [reflexivity|intros f z' []]|]. right. split; [reflexivity|]. intros f z' F C.
    assert (z' <= -1) by (subst z; apply (M f); [now apply (B f z')|exact C]). destruct C as (s & N & _). apply numeral_nonneg in N. lia.
Qed.

(** ** Printed numbers *)
Lemma digit_of_dec n : digit_of (ascii_of_nat (48 + n mod 10)) = Some (Z.of_nat (n mod 10)).
Proof.
  pose proof (Nat.mod_upper_bound n 10 ltac:(lia)) as B. remember (n mod 10)%nat as d.
  do 10 (destruct d as [|d]; [reflexivity|]). lia.
Qed.

Lemma dec_aux_digits f : forall n acc, (n < f)%nat -> exists s, dec_aux f n acc = (s ++ acc)%string /\ s <> EmptyString /\ digits_acc 0 s = Some (Z.of_nat n) /\
  (forall t, digits_acc 0 (s ++ t) = digits_acc (Z.of_nat n) t).
Proof.
  induction f as [|f IH]; intros n acc L; [lia|]. cbn [dec_aux].
  destruct (Nat.eqb_spec (n / 10) 0) as [Q|Q].
  - assert (N : (n mod 10 = n)%nat) by (apply Nat.mod_small; apply Nat.div_small_iff in Q; lia).
    pose proof (digit_of_dec n) as D. rewrite N in *.
    exists (String (ascii_of_nat (48 + n)) EmptyString). split; [reflexivity|]. split; [discriminate|].
    assert (X : forall t, digits_acc 0 (String (ascii_of_nat (48 + n)) t) = digits_acc (Z.of_nat n) t).
    { intros t. cbn [digits_acc]. rewrite D. f_equal. }
    split; [now rewrite X|exact X].
  - assert (n / 10 < n)%nat by (apply Nat.div_lt; [destruct n; [now elim Q|lia]|lia]).
    destruct (IH (n / 10)%nat (String (ascii_of_nat (48 + n mod 10)) acc)) as (s & E & NE & D & X); [lia|].
    exists (s ++ String (ascii_of_nat (48 + n mod 10)) EmptyString)%string.
    assert (Y : forall t, digits_acc 0 ((s ++ String (ascii_of_nat (48 + n mod 10)) EmptyString) ++ t) = digits_acc (Z.of_nat n) t).
    { intros t. rewrite sapp_assoc, X. cbn [String.append digits_acc]. rewrite digit_of_dec. f_equal.
      pose proof (Nat.div_mod n 10 ltac:(lia)). lia. }
    split; [rewrite E, sapp_assoc; reflexivity|]. split; [destruct s; [now elim NE|discriminate]|].
    split; [|exact Y]. specialize (Y EmptyString). rewrite sapp_nil in Y. exact Y.
Qed.

Lemma dec_numeral n : numeral (dec n) (Z.of_nat n).
Proof.
  destruct (dec_aux_digits (S n) n EmptyString ltac:(lia)) as (s & E & A & B & _). unfold dec. rewrite E, sapp_nil. split; auto.
Qed.

Lemma ckpt_checkpoint name i : checkpoint_of name (ckpt name i) (Z.of_nat i).
Proof. exists (dec i). split; [apply dec_numeral|reflexivity]. Qed.

Lemma ckpt_inj name i j : ckpt name i = ckpt name j -> i = j.
Proof.
  intros E. pose proof (ckpt_checkpoint name i) as A. pose proof (ckpt_checkpoint name j) as B. rewrite E in A.
  apply checkpoint_mid in A. apply checkpoint_mid in B. pose proof (numeral_fun _ _ _ A B). lia.
Qed.

(** ** Other models *)
Lemma other_models a b i : In a model_names -> In b model_names -> a <> b -> glob_match a (ckpt b i) = false.
Proof.
  intros A B N. unfold model_names in A, B. unfold glob_match, ckpt. generalize (dec i ++ ".pt")%string. intros t.
  cbn [In] in A, B.
  repeat match goal with H : _ \/ _ |- _ => destruct H as [<-|H] | H : False |- _ => destruct H end;
    first [now elim N | reflexivity].
Qed.

(** ** Runs *)
Section Runs.
  Context {W O : Type}.
  Variable epoch : nat -> W * O -> W * O.
  Variable fresh : O.
  Variable ls : list string -> list string.
  Variable name : string.
  Hypothesis LS : listing ls.

  Lemma write_new (d : disk W) p c : ~ In p (map fst d) -> disk_write d p c = d ++ [(p, c)].
  Proof.
    induction d as [|[q x] d IH]; intros N; [reflexivity|]. cbn in *. destruct (String.eqb_spec p q); [subst; tauto|].
    now rewrite IH by tauto.
  Qed.

  (** The directory [others] followed by checkpoints 0 .. n-1. *)
  Definition saved (ws : list W) : disk W := map (fun iw => (ckpt name (fst iw), Full (snd iw))) (combine (seq 0 (List.length ws)) ws).

  Lemma saved_snoc ws w : saved (ws ++ [w]) = saved ws ++ [(ckpt name (List.length ws), Full w)].
  Proof.
    unfold saved. rewrite app_length. cbn [List.length]. rewrite seq_app. cbn [seq].
    assert (C : forall (A B : Type) (a : list A) (b : list B) a' b', List.length a = List.length b -> combine (a ++ a') (b ++ b') = combine a b ++ combine a' b').
    { clear. induction a as [|x a IH]; intros [|y b] a' b' H; try discriminate; [reflexivity|]. cbn in *. f_equal. apply IH. lia. }
    rewrite C by apply seq_length. rewrite map_app. reflexivity.
  Qed.

  Lemma saved_names ws : map fst (saved ws) = map (ckpt name) (seq 0 (List.length ws)).
  Proof.
    induction ws as [|w ws IH] using rev_ind; [reflexivity|]. rewrite saved_snoc, map_app, IH, app_length. cbn [List.length map fst].
    rewrite seq_app, map_app. reflexivity.
  Qed.

  (** Files that are not checkpoints of this model and do not look like one. *)
  Definition foreign (d : disk W) : Prop := forall f, In f (map fst d) -> glob_match name f = false.

  Lemma ckpt_glob i : glob_match name (ckpt name i) = true.
  Proof. apply glob_spec. now exists (dec i). Qed.

  Lemma new_name others ws : foreign others -> ~ In (ckpt name (List.length ws)) (map fst (others ++ saved ws)).
  Proof.
    intros F. rewrite map_app, saved_names. intros H. apply in_app_or in H as [H|H].
    - apply F in H. now rewrite ckpt_glob in H.
    - apply in_map_iff in H as (j & E & J). apply in_seq in J. apply ckpt_inj in E. lia.
  Qed.

  Lemma write_next others ws c : foreign others ->
    disk_write (others ++ saved ws) (ckpt name (List.length ws)) c = others ++ saved ws ++ [(ckpt name (List.length ws), c)].
  Proof. intros F. rewrite write_new by now apply new_name. now rewrite <- app_assoc. Qed.

  (** Every directory state of the loop. *)
  Lemma iterations_states others m : foreign others -> forall ws s d, In d (iterations epoch name m (List.length ws) s (others ++ saved ws)) ->
    exists new, d = others ++ saved (ws ++ new) /\ new <> [] \/
                d = others ++ saved (ws ++ new) ++ [(ckpt name (List.length (ws ++ new)), Torn)].
  Proof.
    intros F. induction m as [|m IH]; intros ws s d H; [destruct H|]. cbn [iterations] in H.
    rewrite !write_next in H by exact F. destruct H as [<-|[<-|H]].
    - exists []. right. now rewrite app_nil_r.
    - exists [fst (epoch (List.length ws mod 8) s)]. left. split; [now rewrite saved_snoc|discriminate].
    - rewrite <- saved_snoc in H.
      replace (S (List.length ws)) with (List.length (ws ++ [fst (epoch (List.length ws mod 8) s)])) in H by (rewrite app_length; cbn; lia).
      destruct (IH _ _ _ H) as (new & [[-> N]| ->]).
      + exists (fst (epoch (List.length ws mod 8) s) :: new). left. rewrite <- app_assoc. split; [reflexivity|discriminate].
      + exists (fst (epoch (List.length ws mod 8) s) :: new). right. rewrite <- app_assoc. reflexivity.
  Qed.

  Lemma read_app_r (d e : disk W) p : ~ In p (map fst d) -> disk_read (d ++ e) p = disk_read e p.
  Proof. induction d as [|[q x] d IH]; intros N; [reflexivity|]. cbn in *. destruct (String.eqb_spec p q); [subst; tauto|]. apply IH. tauto. Qed.

  Lemma read_last others ws w : foreign others -> disk_read (others ++ saved (ws ++ [w])) (ckpt name (List.length ws)) = Some (Full w).
  Proof.
    intros F. rewrite saved_snoc. rewrite app_assoc, read_app_r by now apply new_name. cbn. now rewrite String.eqb_refl.
  Qed.

  Lemma tidy_dir others ws extra : foreign others -> (forall f, In f extra -> exists i, f = ckpt name i) ->
    tidy name (ls (map fst (others ++ saved ws) ++ extra)).
  Proof.
    intros F X mid H. apply (Permutation_in _ (LS _)) in H. apply in_app_or in H as [H|H].
    - rewrite map_app in H. apply in_app_or in H as [H|H].
      + apply F in H. rewrite (proj2 (glob_spec name _)) in H; [discriminate|now exists mid].
      + rewrite saved_names in H. apply in_map_iff in H as (j & E & _). exists (Z.of_nat j).
        apply (checkpoint_mid name). rewrite <- E. apply ckpt_checkpoint.
    - destruct (X _ H) as (i & E). exists (Z.of_nat i). apply (checkpoint_mid name). rewrite E. apply ckpt_checkpoint.
  Qed.

  Lemma foreign_not_ckpt others f z : foreign others -> In f (map fst others) -> ~ checkpoint_of name f z.
  Proof. intros F H (s & N & E). apply F in H. rewrite (proj2 (glob_spec name _)) in H; [discriminate|now exists s]. Qed.

  Lemma ckpt_of_ckpt i z : checkpoint_of name (ckpt name i) z -> z = Z.of_nat i.
  Proof. intros H. apply checkpoint_mid in H. exact (numeral_fun _ _ _ H (dec_numeral i)). Qed.

  (** Numbers [0 .. n] as checkpoints: the number found is [n]. *)
  Lemma latest_found others ws extra n : foreign others ->
    map fst (saved ws) ++ extra = map (ckpt name) (seq 0 (S n)) ->
    find_latest name save_dir (ls (map fst (others ++ saved ws) ++ extra)) = (Z.of_nat n, Some ("saved_models/" ++ ckpt name n)%string).
  Proof.
    intros F E.
    assert (A : forall f, In f (ls (map fst (others ++ saved ws) ++ extra)) <-> In f (map fst others) \/ In f (map (ckpt name) (seq 0 (S n)))).
    { intros f. rewrite <- E. rewrite map_app. split; intros H.
      - apply (Permutation_in _ (LS _)) in H. rewrite !in_app_iff in *. tauto.
      - apply (Permutation_in _ (Permutation_sym (LS _))). rewrite !in_app_iff in *. tauto. }
    assert (X : forall f, In f extra -> exists i, f = ckpt name i).
    { intros f H. assert (In f (map (ckpt name) (seq 0 (S n)))) as H' by (rewrite <- E; apply in_or_app; now right).
      apply in_map_iff in H' as (i & <- & _). now exists i. }
    destruct (find_latest_ok name _ (tidy_dir others ws extra F X)) as [(z & f & R & I & C & M)|[R N]].
    - rewrite R. assert (L : In (ckpt name n) (ls (map fst (others ++ saved ws) ++ extra))) by (apply A; right; apply in_map, in_seq; lia).
      pose proof (M _ _ L (ckpt_checkpoint name n)) as Z1. apply A in I as [I|I]; [now elim (foreign_not_ckpt others f z F I)|].
      apply in_map_iff in I as (j & <- & J). apply in_seq in J. apply ckpt_of_ckpt in C. assert (j = n) by lia. subst j. now subst z.
    - elim (N (ckpt name n) (Z.of_nat n)); [apply A; right; apply in_map, in_seq; lia|apply ckpt_checkpoint].
  Qed.

  Lemma latest_none others : foreign others -> find_latest name save_dir (ls (map fst others)) = (0, None).
  Proof.
    intros F. pose proof (tidy_dir others [] [] F) as T. cbn [saved List.length seq combine map] in T. rewrite !app_nil_r in T.
    destruct (find_latest_ok name _ (T ltac:(intros f []))) as [(z & f & R & I & C & M)|[R N]]; [|exact R].
    apply (Permutation_in _ (LS _)) in I. now elim (foreign_not_ckpt others f z F I).
  Qed.

  Lemma startup_none others init : foreign others -> startup ls name init others = Ok (0%nat, init).
  Proof. intros F. unfold startup. now rewrite latest_none. Qed.

  Lemma startup_last others ws w init : foreign others ->
    startup ls name init (others ++ saved (ws ++ [w])) = Ok (List.length (ws ++ [w]), w).
  Proof.
    intros F. unfold startup.
    pose proof (latest_found others (ws ++ [w]) [] (List.length ws) F) as L. rewrite !app_nil_r in L.
    rewrite L by (rewrite saved_names, app_length, Nat.add_1_r; reflexivity).
    change (strip_prefix (save_dir ++ "/") ("saved_models/" ++ ckpt name (List.length ws))) with
      (strip_prefix "saved_models/" ("saved_models/" ++ ckpt name (List.length ws))).
    rewrite strip_prefix_app, read_last by exact F. rewrite Nat2Z.id, app_length, Nat.add_1_r. reflexivity.
  Qed.

  Lemma startup_torn others ws init : foreign others ->
    startup ls name init (others ++ saved ws ++ [(ckpt name (List.length ws), Torn)]) = Err RuntimeError.
  Proof.
    intros F. unfold startup. rewrite app_assoc, map_app.
    rewrite (latest_found others ws _ (List.length ws) F) by (rewrite saved_names, seq_S, map_app; reflexivity).
    change (strip_prefix (save_dir ++ "/") ("saved_models/" ++ ckpt name (List.length ws))) with
      (strip_prefix "saved_models/" ("saved_models/" ++ ckpt name (List.length ws))).
    rewrite strip_prefix_app. rewrite read_app_r by now apply new_name. cbn. now rewrite String.eqb_refl.
  Qed.

  (** Any intact reachable directory is [others] followed by checkpoints 0 .. n-1. *)
  Lemma history_shape others d : foreign others -> history epoch fresh ls name others d -> exists ws, d = others ++ saved ws.
  Proof.
    intros F H. induction H as [|d m init ds d' H IH T I N].
    - exists []. cbn. now rewrite app_nil_r.
    - destruct IH as (ws & ->). unfold train in T.
      destruct (startup ls name init (others ++ saved ws)) as [[i w]|] eqn:S; [|discriminate]. cbn [bind] in T. injection T as <-.
      destruct I as [<-|I]; [now exists ws|].
      assert (i = List.length ws) as ->.
      { destruct ws as [|w0 ws _] using rev_ind.
        - cbn in S. rewrite app_nil_r, startup_none in S by exact F. now injection S as <-.
        - rewrite startup_last in S by exact F. now injection S as <-. }
      destruct (iterations_states others m F _ _ _ I) as (new & [[-> _]| ->]); [now exists (ws ++ new)|].
      exfalso. apply (N (ckpt name (List.length (ws ++ new)))). apply in_or_app. right. apply in_or_app. right. now left.
  Qed.

  (** What a run writes. *)
  Lemma train_extends others ws m init ds d' : foreign others ->
    train epoch fresh ls name m init (others ++ saved ws) = Ok ds -> In d' ds -> exists more, d' = (others ++ saved ws) ++ more.
  Proof.
    intros F T I. unfold train in T.
    destruct (startup ls name init (others ++ saved ws)) as [[i w]|] eqn:S; [|discriminate]. cbn [bind] in T. injection T as <-.
    destruct I as [<-|I]; [exists []; now rewrite app_nil_r|].
    assert (i = List.length ws) as ->.
    { destruct ws as [|w0 ws _] using rev_ind.
      - cbn in S. rewrite app_nil_r, startup_none in S by exact F. now injection S as <-.
      - rewrite startup_last in S by exact F. now injection S as <-. }
    assert (P : forall new, exists more, saved (ws ++ new) = saved ws ++ more).
    { induction new as [|x new IH] using rev_ind; [exists []; now rewrite !app_nil_r|].
      destruct IH as (more & E). rewrite app_assoc, saved_snoc, E, <- app_assoc. eauto. }
    destruct (iterations_states others m F _ _ _ I) as (new & [[-> _]| ->]); destruct (P new) as (more & ->).
    - exists more. now rewrite app_assoc.
    - exists (more ++ [(ckpt name (List.length (ws ++ new)), Torn)]). now rewrite <- !app_assoc.
  Qed.

  (** ** Final parameters *)
  Lemma last_cons2 {A} (a b : A) l d : last (a :: b :: l) d = last (b :: l) d.
  Proof. reflexivity. Qed.

  Lemma iterations_last others m : foreign others -> forall ws s d0,
    exists new, last ((others ++ saved ws) :: iterations epoch name m (List.length ws) s (others ++ saved ws)) d0 = others ++ saved (ws ++ new) /\
      List.length new = m /\
      (m <> 0%nat -> exists pre, new = pre ++ [fst (steps epoch m (List.length ws) s)]).
  Proof.
    intros F. induction m as [|m IH]; intros ws s d0.
    - exists []. cbn. rewrite app_nil_r. repeat split; congruence.
    - cbn [iterations]. rewrite !write_next by exact F. rewrite last_cons2, last_cons2.
      rewrite <- saved_snoc. set (w := fst (epoch (List.length ws mod 8) s)).
      replace (S (List.length ws)) with (List.length (ws ++ [w])) by (rewrite app_length; cbn; lia).
      destruct (IH (ws ++ [w]) (epoch (List.length ws mod 8) s) d0) as (new & E & L & P).
      exists (w :: new). rewrite E, <- app_assoc. split; [reflexivity|]. split; [cbn; lia|]. intros _.
      cbn [steps]. destruct m as [|m].
      + destruct new; [|discriminate]. now exists [].
      + destruct (P ltac:(discriminate)) as (pre & E'). exists (w :: pre).
        replace (S (List.length ws)) with (List.length (ws ++ [w])) by (rewrite app_length; cbn; lia).
        cbn [app]. f_equal. exact E'.
  Qed.
End Runs.
