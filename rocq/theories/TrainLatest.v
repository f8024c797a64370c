(** Which file find_latest_checkpoint returns for arbitrary directory contents. *)
From Coq Require Import ZArith List Bool String Ascii Lia Arith.
From Verif Require Import Base Train SpecTrain TrainLemmas.
Import ListNotations.
Open Scope Z_scope.

Lemma take_digits_spec s : forall d q, take_digits s = (d, q) -> s = (d ++ q)%string /\ (exists z, digits_acc 0 d = Some z).
Proof.
  assert (G : forall s d q, take_digits s = (d, q) -> s = (d ++ q)%string /\ forall a, exists z, digits_acc a d = Some z).
  { clear s. induction s as [|c s IH]; intros d q H; cbn [take_digits] in H.
    - injection H as <- <-. split; [reflexivity|]. intros a. now exists a.
    - destruct (digit_of c) as [x|] eqn:D.
      + destruct (take_digits s) as [d' q'] eqn:T. injection H as <- <-. destruct (IH d' q' eq_refl) as [-> V].
        split; [reflexivity|]. intros a. cbn [digits_acc]. rewrite D. apply V.
      + injection H as <- <-. split; [reflexivity|]. intros a. now exists a. }
  intros d q H. destruct (G s d q H) as [A B]. split; [exact A|apply B].
Qed.

Lemma regex_at_spec name s z : regex_at name s = Some z <-> numbered_at name s "" z.
Proof.
  unfold regex_at, numbered_at. cbn [String.append]. split.
  - destruct (strip_prefix (ckpt_prefix name) s) as [r|] eqn:E; [|discriminate]. apply strip_prefix_inv in E. subst s.
    destruct (take_digits r) as [d q] eqn:T. apply take_digits_spec in T as [-> _].
    destruct d as [|c d]; [discriminate|]. destruct (strip_prefix ".pt" q) as [post|] eqn:Q; [|discriminate].
    apply strip_prefix_inv in Q. subst q. intros H. exists (String c d), post. split; [split; [discriminate|exact H]|].
    symmetry. exact (prefix_eq name _).
  - intros (d & post & (N & V) & ->).
    replace (String _ _) with (ckpt_prefix name ++ d ++ ".pt" ++ post)%string by (symmetry; exact (prefix_eq name _)).
    rewrite strip_prefix_app, (digits_acc_all d 0 z V (".pt" ++ post) eq_refl), strip_prefix_app.
    destruct d; [now elim N|exact V].
Qed.

Lemma numbered_cons name c s pre z : numbered_at name s pre z -> numbered_at name (String c s) (String c pre) z.
Proof. intros (d & post & N & ->). exists d, post. now split. Qed.

Lemma numbered_inv name c s pre z : numbered_at name (String c s) pre z -> regex_at name (String c s) = None ->
  exists pre', pre = String c pre' /\ numbered_at name s pre' z.
Proof.
  intros H R. destruct pre as [|a pre'].
  - apply regex_at_spec in H. congruence.
  - destruct H as (d & post & N & E). cbn [String.append] in E. injection E as <- E. exists pre'. split; [reflexivity|]. now exists d, post.
Qed.

Lemma search_some name s z : regex_search name s = Some z -> first_number name s z.
Proof.
  induction s as [|c s IH]; cbn [regex_search].
  - destruct (regex_at name "") eqn:R; [|discriminate]. intros H. injection H as ->. apply regex_at_spec in R.
    exists EmptyString. split; [exact R|]. intros. cbn. lia.
  - destruct (regex_at name (String c s)) eqn:R.
    + intros H. injection H as ->. apply regex_at_spec in R. exists EmptyString. split; [exact R|]. intros. cbn. lia.
    + intros H. destruct (IH H) as (pre & N & M). exists (String c pre). split; [now apply numbered_cons|].
      intros pre' z' N'. destruct (numbered_inv _ _ _ _ _ N' R) as (p & -> & N2). apply M in N2. cbn. lia.
Qed.

Lemma search_none name s pre z : regex_search name s = None -> ~ numbered_at name s pre z.
Proof.
  revert pre. induction s as [|c s IH]; intros pre; cbn [regex_search].
  - destruct (regex_at name "") eqn:R; [discriminate|]. intros _ H. destruct pre as [|a p].
    + apply regex_at_spec in H. congruence.
    + destruct H as (d & post & _ & E). discriminate E.
  - destruct (regex_at name (String c s)) eqn:R; [discriminate|]. intros H N.
    destruct (numbered_inv _ _ _ _ _ N R) as (p & -> & N2). exact (IH p H N2).
Qed.

Lemma search_first name s z : first_number name s z -> regex_search name s = Some z.
Proof.
  induction s as [|c s IH]; intros (pre & N & M); cbn [regex_search].
  - destruct pre; [apply regex_at_spec in N; now rewrite N|]. destruct N as (d & post & _ & E). discriminate E.
  - destruct (regex_at name (String c s)) as [y|] eqn:R.
    + pose proof R as R'. apply regex_at_spec in R'. apply M in R'. destruct pre; [|cbn in R'; lia]. apply regex_at_spec in N. congruence.
    + destruct (numbered_inv _ _ _ _ _ N R) as (p & -> & N2). apply IH. exists p. split; [exact N2|].
      intros p' z' N'. apply (numbered_cons name c) in N'. apply M in N'. cbn in N'. lia.
Qed.

Definition value name f : option Z := regex_search name (path_join save_dir f).

Lemma value_spec name f z : glob_match name f = true -> (value name f = Some z <-> counts_as name f z).
Proof.
  intros G. apply glob_spec in G as (mid & E). unfold value, counts_as.
  assert (J : path_join save_dir f = ("saved_models/" ++ f)%string) by (subst f; reflexivity).
  rewrite J. split.
  - intros H. split; [now exists mid|now apply search_some].
  - intros [_ H]. now apply search_first.
Qed.

Lemma search_nonneg name s z : regex_search name s = Some z -> 0 <= z.
Proof. intros H. apply search_some in H as (pre & (d & post & N & _) & _). exact (numeral_nonneg _ _ N). Qed.

(** The files whose number is the largest so far, scanning in order *)
Definition picked (name : string) (seen : list string) (b : Z * option string) : Prop :=
  match b with
  | (z, Some p) => 0 <= z /\ exists before f after, seen = before ++ f :: after /\ p = path_join save_dir f /\ value name f = Some z /\
      (forall g y, In g before -> value name g = Some y -> y < z) /\ (forall g y, In g after -> value name g = Some y -> y <= z)
  | (z, None) => z = -1 /\ forall g, In g seen -> value name g = None
  end.

Lemma picked_fold name : forall todo seen b, picked name seen b ->
  picked name (seen ++ todo) (fold_left (latest_step name) (map (path_join save_dir) todo) b).
Proof.
  induction todo as [|f todo IH]; intros seen b B; [now rewrite app_nil_r|].
  cbn [map fold_left]. replace (seen ++ f :: todo) with ((seen ++ [f]) ++ todo) by now rewrite <- app_assoc.
  apply IH. unfold latest_step. fold (value name f).
  destruct (value name f) as [z|] eqn:V.
  - pose proof (search_nonneg _ _ _ V) as Z0. destruct (Z.ltb_spec (fst b) z) as [Q|Q].
    + cbn [picked]. split; [exact Z0|]. exists seen, f, []. split; [reflexivity|]. split; [reflexivity|]. split; [exact V|]. split; [|intros g y []].
      intros g y G W. destruct b as [x [p|]]; cbn [fst picked] in *.
      * destruct B as (_ & be & f0 & af & -> & _ & V0 & B1 & B2). apply in_app_or in G as [G|[<-|G]].
        -- specialize (B1 _ _ G W). lia.
        -- rewrite V0 in W. injection W as <-. lia.
        -- specialize (B2 _ _ G W). lia.
      * destruct B as (_ & B). rewrite (B g G) in W. discriminate.
    + destruct b as [x [p|]]; cbn [fst picked] in *; [|lia].
      destruct B as (X & be & f0 & af & -> & P & V0 & B1 & B2). split; [exact X|]. exists be, f0, (af ++ [f]).
      split; [now rewrite <- app_assoc|]. split; [exact P|]. split; [exact V0|]. split; [exact B1|].
      intros g y G W. apply in_app_or in G as [G|[<-|[]]]; [exact (B2 g y G W)|]. rewrite V in W. injection W as <-. exact Q.
  - destruct b as [x [p|]]; cbn [picked] in *.
    + destruct B as (X & be & f0 & af & -> & P & V0 & B1 & B2). split; [exact X|]. exists be, f0, (af ++ [f]).
      split; [now rewrite <- app_assoc|]. split; [exact P|]. split; [exact V0|]. split; [exact B1|].
      intros g y G W. apply in_app_or in G as [G|[<-|[]]]; [exact (B2 g y G W)|]. congruence.
    + destruct B as (X & B). split; [exact X|]. intros g G. apply in_app_or in G as [G|[<-|[]]]; [now apply B|exact V].
Qed.

Lemma filter_split {A} (p : A -> bool) : forall l before x after, filter p l = before ++ x :: after ->
  exists b a, l = b ++ x :: a /\ filter p b = before /\ filter p a = after.
Proof.
  induction l as [|y l IH]; intros before x after H; [destruct before; discriminate|]. cbn [filter] in H.
  destruct (p y) eqn:P.
  - destruct before as [|z before]; cbn [app] in H; injection H as -> H.
    + exists [], l. split; [reflexivity|]. split; [reflexivity|exact H].
    + destruct (IH _ _ _ H) as (b & a & -> & B & A'). exists (z :: b), a. split; [reflexivity|]. cbn [filter]. rewrite P, B. auto.
  - destruct (IH _ _ _ H) as (b & a & -> & B & A'). exists (y :: b), a. split; [reflexivity|]. cbn [filter]. rewrite P. auto.
Qed.

Lemma find_latest_exact name files :
  (exists z before f after, files = before ++ f :: after /\
     find_latest name save_dir files = (z, Some ("saved_models/" ++ f)%string) /\ counts_as name f z /\
     (forall g y, In g before -> counts_as name g y -> y < z) /\ (forall g y, In g after -> counts_as name g y -> y <= z)) \/
  (find_latest name save_dir files = (0, None) /\ forall f z, In f files -> ~ counts_as name f z).
Proof.
  unfold find_latest. pose proof (picked_fold name (filter (glob_match name) files) [] (-1, None)) as H. cbn [app] in H.
  specialize (H (conj eq_refl (fun g (F : In g []) => match F with end))).
  assert (K : forall l g y, In g l -> counts_as name g y -> In g (filter (glob_match name) l) /\ value name g = Some y).
  { intros l g y I C. assert (G : glob_match name g = true) by (apply glob_spec; exact (proj1 C)).
    split; [now apply filter_In|]. now apply value_spec. }
  destruct (fold_left (latest_step name) _ _) as [z [p|]]; cbn [picked] in H.
  - destruct H as (_ & be & f & af & E & P & V & B1 & B2). left.
    destruct (filter_split _ _ _ _ _ E) as (b & a & -> & FB & FA).
    assert (G : glob_match name f = true).
    { assert (I : In f (filter (glob_match name) (b ++ f :: a))) by (rewrite E; apply in_or_app; right; now left). now apply filter_In in I. }
    pose proof (proj1 (value_spec name f z G) V) as C. exists z, b, f, a. split; [reflexivity|].
    split; [apply glob_spec in G as (mid & Ef); subst p f; reflexivity|]. split; [exact C|]. split.
    + intros g y I Cg. destruct (K _ _ _ I Cg) as [I' V']. rewrite FB in I'. exact (B1 g y I' V').
    + intros g y I Cg. destruct (K _ _ _ I Cg) as [I' V']. rewrite FA in I'. exact (B2 g y I' V').
  - right. split; [reflexivity|]. intros f y I C. destruct (K _ _ _ I C) as [I' V']. destruct H as [_ H]. rewrite (H f I') in V'. discriminate.
Qed.
