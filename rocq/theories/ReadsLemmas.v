(** Proofs for C110: a conversion reads nothing but the attributes of [meaning]. *)
From Coq Require Import ZArith List Bool String Lia.
From Verif Require Import Base Constants Naki Decision GameInfo Agari Process SpecReads.
Import ListNotations.
Open Scope Z_scope.

(** ** Document order *)
Fixpoint traverse_listed (e : elem) : listed e (traverse e).
Proof.
  destruct e as [t a cs]. cbn [traverse].
  assert (H : Forall2 listed cs (map traverse cs)).
  { induction cs as [|c cs IH]; constructor; [apply traverse_listed|exact IH]. }
  rewrite flat_map_concat_map. now constructor.
Qed.

Fixpoint listed_unique (e : elem) (l : list event) (H : listed e l) {struct H} : l = traverse e.
Proof.
  destruct H as [t a cs ls H]. cbn [traverse]. f_equal. rewrite flat_map_concat_map. f_equal.
  induction H as [|c l cs ls A _ IH]; [reflexivity|]. cbn [map]. f_equal; [now apply listed_unique|exact IH].
Qed.

(** ** Steps *)
Lemma step_reads L n s e e' : same_meaning e e' -> step L n s e = step L n s e'.
Proof.
  intros [T R]. unfold step. rewrite <- T. unfold meaning in R.
  destruct (String.eqb (e_tag e) "DORA") eqn:D.
  { apply String.eqb_eq in D. rewrite D in R. cbn in R. now rewrite (R "hai"%string) by auto. }
  destruct (String.eqb (e_tag e) "REACH") eqn:D1.
  { apply String.eqb_eq in D1. rewrite D1 in R. cbn in R. now rewrite (R "who"%string), (R "step"%string) by auto. }
  destruct (String.eqb (e_tag e) "N") eqn:D2.
  { apply String.eqb_eq in D2. rewrite D2 in R. cbn in R. now rewrite (R "who"%string), (R "m"%string) by auto. }
  reflexivity.
Qed.

Lemma result_reads e e' : same_meaning e e' -> is_result e = is_result e'.
Proof. intros [T _]. unfold is_result. now rewrite T. Qed.

Lemma check_reads e e' : same_meaning e e' -> check_result e = check_result e'.
Proof.
  intros M. unfold check_result. rewrite <- (result_reads _ _ M). destruct (is_result e) eqn:E; [|reflexivity].
  destruct M as [T R]. cbn [passert bind]. rewrite (R "sc"%string); [reflexivity|].
  unfold is_result in E. unfold meaning. apply orb_prop in E as [E|E]; apply String.eqb_eq in E; rewrite E; now left.
Qed.

Lemma events_read L n : forall evs evs' s, Forall2 same_meaning evs evs' ->
  match run_events L n s evs, run_events L n s evs' with
  | Ok (t, Some l), Ok (t', Some l') => t = t' /\ Forall2 same_meaning l l'
  | Ok (t, None), Ok (t', None) => t = t'
  | Err e, Err e' => e = e'
  | _, _ => False
  end.
Proof.
  intros evs evs' s H. revert s. induction H as [|e e' r r' M F IH]; intros s; [reflexivity|].
  cbn [run_events]. rewrite <- (result_reads _ _ M). destruct (is_result e); [split; [reflexivity|now constructor]|].
  rewrite <- (step_reads L n s _ _ M). destruct (step L n s e) as [s1|]; [apply IH|reflexivity].
Qed.

Lemma mapM_reads {A B} (R : A -> A -> Prop) (f g : A -> res B) l l' :
  (forall x y, R x y -> f x = g y) -> Forall2 R l l' -> mapM f l = mapM g l'.
Proof.
  intros H F. induction F as [|x y r r' M _ IH]; [reflexivity|]. cbn [mapM]. now rewrite (H _ _ M), IH.
Qed.

(** ** Rules *)
Lemma bits_rules go go' : go mod 32 = go' mod 32 -> forall k, 0 <= k < 5 -> Z.testbit go k = Z.testbit go' k.
Proof. intros E k Hk. change 32 with (2 ^ 5) in E. rewrite <- (Z.mod_pow2_bits_low go 5 k), <- (Z.mod_pow2_bits_low go' 5 k) by lia. now rewrite E. Qed.

Lemma land_rules go go' m : go mod 32 = go' mod 32 -> 0 <= m < 32 -> Z.land go m = Z.land go' m.
Proof.
  intros E Hm. apply Z.bits_inj'. intros k Hk. rewrite !Z.land_spec. destruct (Z.ltb_spec k 5).
  - now rewrite (bits_rules _ _ E k) by lia.
  - replace (Z.testbit m k) with false; [now rewrite !andb_false_r|]. symmetry. rewrite <- (Z.mod_small m (2 ^ 5)) by (cbn; lia). apply Z.mod_pow2_bits_high. lia.
Qed.

Lemma init_reads go go' e e' : go mod 32 = go' mod 32 -> same_meaning e e' -> init_round go e = init_round go' e'.
Proof.
  intros G [T R]. unfold init_round. rewrite <- T. destruct (String.eqb (e_tag e) "INIT") eqn:E; [|reflexivity].
  apply String.eqb_eq in E. rewrite E in R. cbn in R.
  assert (N : n_rounds go = n_rounds go') by (unfold n_rounds, tonnan; now rewrite (land_rules _ _ 8 G) by lia).
  rewrite (R "ten"%string), (R "oya"%string), (R "seed"%string) by auto.
  assert (H : mapM (fun p => h <- dict_get (e_attr e) (hai_key p) ;; ints h) (seq 0 4) = mapM (fun p => h <- dict_get (e_attr e') (hai_key p) ;; ints h) (seq 0 4)).
  { change (seq 0 4) with [0; 1; 2; 3]%nat. cbn [mapM].
    change (hai_key 0) with "hai0"%string. change (hai_key 1) with "hai1"%string. change (hai_key 2) with "hai2"%string. change (hai_key 3) with "hai3"%string.
    now rewrite (R "hai0"%string), (R "hai1"%string), (R "hai2"%string), (R "hai3"%string) by auto 10. }
  rewrite H, N. cbn [passert bind].
  destruct (dict_get (e_attr e') "ten"); [|reflexivity]. cbn [bind]. destruct (ints _); [|reflexivity]. cbn [bind].
  destruct (dict_get (e_attr e') "oya"); [|reflexivity]. cbn [bind]. destruct (py_int _); [|reflexivity]. cbn [bind].
  destruct (py_index 4 _); [|reflexivity]. cbn [bind].
  destruct (dict_get (e_attr e') "seed"); [|reflexivity]. cbn [bind]. destruct (ints _) as [sd|]; [|reflexivity]. cbn [bind].
  destruct sd as [|r [|h [|k [|d1 [|d2 [|d [|]]]]]]]; reflexivity.
Qed.

Lemma round_reads L go go' evs evs' : go mod 32 = go' mod 32 -> Forall2 same_meaning evs evs' -> process_round L go evs = process_round L go' evs'.
Proof.
  intros G F. unfold process_round. destruct F as [|e e' r r' M F]; [reflexivity|].
  rewrite (init_reads _ _ _ _ G M). destruct (init_round go' e') as [[n s]|]; [|reflexivity]. cbn [bind].
  pose proof (events_read L n _ _ s F) as H.
  destruct (run_events L n s r) as [[t [l|]]|x], (run_events L n s r') as [[t' [l'|]]|x']; try contradiction; cbn [bind].
  - destruct H as [<- H]. now rewrite (mapM_reads same_meaning check_result check_result l l' check_reads H).
  - subst t'. now rewrite (mapM_reads same_meaning check_result check_result (e :: r) (e' :: r') check_reads (Forall2_cons _ _ M F)).
  - now subst.
Qed.

(** ** Grouping *)
Lemma skipped_in_header e : skipped_tag (e_tag e) = in_header e.
Proof. unfold skipped_tag, in_header. cbn [existsb]. destruct (String.eqb _ "GO"), (String.eqb _ "UN"); now rewrite ?orb_true_r. Qed.

Lemma group_played : forall evs cur, group evs cur = group (filter (fun e => negb (in_header e)) evs) cur.
Proof.
  induction evs as [|e r IH]; intros cur; [reflexivity|]. cbn [filter]. rewrite <- skipped_in_header.
  destruct (skipped_tag (e_tag e)) eqn:S; cbn [negb group]; rewrite S; [apply IH|].
  destruct (String.eqb (e_tag e) "BYE"); [reflexivity|]. destruct (String.eqb (e_tag e) "INIT"); [now rewrite IH|].
  destruct cur; [apply IH|reflexivity].
Qed.

Definition cur_like (c c' : option (list event)) : Prop :=
  match c, c' with Some l, Some l' => Forall2 same_meaning l l' | None, None => True | _, _ => False end.

Lemma group_reads : forall evs evs' cur cur', Forall2 same_meaning evs evs' -> cur_like cur cur' ->
  match group evs cur, group evs' cur' with
  | Ok rs, Ok rs' => Forall2 (Forall2 same_meaning) rs rs'
  | Err x, Err x' => x = x'
  | _, _ => False
  end.
Proof.
  intros evs evs' cur cur' F. revert cur cur'. induction F as [|e e' r r' M F IH]; intros cur cur' C; cbn [group].
  - destruct cur, cur'; try contradiction; [repeat constructor; exact C|constructor].
  - destruct M as [T R]. rewrite <- T. destruct (skipped_tag (e_tag e)); [now apply IH|].
    destruct (String.eqb (e_tag e) "BYE"); [reflexivity|]. destruct (String.eqb (e_tag e) "INIT").
    + assert (C1 : cur_like (Some [e]) (Some [e'])) by (cbn; repeat constructor; assumption). specialize (IH _ _ C1).
      destruct (group r (Some [e])) as [rs|], (group r' (Some [e'])) as [rs'|]; try contradiction; cbn [bind]; [|exact IH].
      destruct cur, cur'; try contradiction; [now constructor|exact IH].
    + destruct cur as [l|], cur' as [l'|]; try contradiction; [|reflexivity]. apply IH. cbn in *. apply Forall2_app; [exact C|repeat constructor; assumption].
Qed.

Lemma rules_type root : rules root = match filter (fun e => String.eqb (el_tag e) "GO") (el_children root) with
  | [g] => match dict_get (el_attr g) "type" with Ok t => match py_int t with Ok z => Some (z mod 32) | Err _ => None end | Err _ => None end
  | _ => None end.
Proof.
  destruct root as [t a cs]. unfold rules. cbn [el_children].
  replace (filter (fun c => match c with Elem t _ _ => String.eqb t "GO" end) cs) with (filter (fun e => String.eqb (el_tag e) "GO") cs) by (apply filter_ext; now intros []).
  destruct (filter _ cs) as [|[t1 a1 c1] [|]]; reflexivity.
Qed.

Definition go_type (g : elem) : res Z :=
  match dict_get (el_attr g) "type" with
  | Ok t => match py_int t with Ok z => Ok z | Err _ => Err ValueError end
  | Err _ => Err ValueError
  end.

Lemma process_reads L root root' evs evs' : listed root evs -> listed root' evs' -> rules root = rules root' ->
  Forall2 same_meaning (filter (fun e => negb (in_header e)) evs) (filter (fun e => negb (in_header e)) evs') ->
  process L root = process L root'.
Proof.
  intros A B G F. apply listed_unique in A, B. subst evs evs'. rewrite !rules_type in G. unfold process, get_rounds.
  rewrite (group_played (traverse root)), (group_played (traverse root')).
  pose proof (group_reads _ _ None None F I) as K.
  destruct (filter _ (el_children root)) as [|g [|]], (filter _ (el_children root')) as [|g' [|]]; try reflexivity.
  all: try (destruct (dict_get (el_attr g) "type") as [ty|]; [destruct (py_int ty)|]; try discriminate G; reflexivity).
  all: try (destruct (dict_get (el_attr g') "type") as [ty|]; [destruct (py_int ty)|]; try discriminate G; reflexivity).
  fold (go_type g). fold (go_type g').
  assert (Q : match go_type g, go_type g' with Ok z, Ok z' => z mod 32 = z' mod 32 | Err x, Err x' => x = x' | _, _ => False end).
  { unfold go_type. destruct (dict_get (el_attr g) "type") as [ty|]; [destruct (py_int ty)|]; (destruct (dict_get (el_attr g') "type") as [ty'|]; [destruct (py_int ty')|]); try discriminate G; try reflexivity.
    now injection G. }
  destruct (go_type g) as [go|x], (go_type g') as [go'|x']; try contradiction; cbn [bind]; [|now subst].
  destruct (group _ None) as [rs|x], (group (filter _ (traverse root')) None) as [rs'|x']; try contradiction; cbn [bind]; [|now subst].
  unfold against_human, no_red, kansaki, three_players.
  rewrite (land_rules _ _ 1 Q), (land_rules _ _ 2 Q), (land_rules _ _ 4 Q), (land_rules _ _ 16 Q) by lia.
  now rewrite (mapM_reads (Forall2 same_meaning) (process_round L go) (process_round L go') rs rs' (fun x y => round_reads L go go' x y Q) K).
Qed.
