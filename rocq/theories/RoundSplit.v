(** Splitting a log into rounds, and what an accepted round looks like. *)
From Coq Require Import ZArith List Bool String Ascii Lia PeanoNat Permutation.
From Verif Require Import Base Constants Naki Decision Tokens GameInfo Agari Process VecLemmas
  SpecMeld SpecTokens SpecRound RoundLemmas RoundInv RoundTiles RoundInit RoundBook TokensLemmas.
Import ListNotations.
Open Scope Z_scope.

Lemma skipped_header t : skipped_tag t = true <-> header_tag t.
Proof.
  unfold skipped_tag, header_tag. cbn [existsb]. rewrite !orb_true_iff, !String.eqb_eq. intuition discriminate.
Qed.
Lemma result_iff e : is_result e = true <-> result_event e.
Proof. unfold is_result, result_event. now rewrite orb_true_iff, !String.eqb_eq. Qed.

(** *** group *)
Definition keep (e : event) : bool := negb (skipped_tag (e_tag e)).
Lemma init_not_skipped e : String.eqb (e_tag e) "INIT" = true -> skipped_tag (e_tag e) = false.
Proof. intros H. apply String.eqb_eq in H. rewrite H. reflexivity. Qed.

Lemma group_ok evs : forall cur rs, group evs cur = Ok rs ->
  List.concat rs = match cur with None => [] | Some l => l end ++ filter keep evs /\
  Forall (fun e => e_tag e <> "BYE"%string) (filter keep evs) /\
  match cur with
  | None => Forall one_round rs
  | Some l => one_round l -> Forall one_round rs
  end.
Proof.
  induction evs as [|ev r IH]; cbn [group filter]; intros cur rs H.
  - injection H as <-. destruct cur as [l|]; cbn [List.concat]; rewrite ?app_nil_r; repeat split; constructor; [assumption|constructor].
  - unfold keep. destruct (skipped_tag (e_tag ev)) eqn:Es; cbn [negb].
    + now apply IH.
    + destruct (String.eqb (e_tag ev) "BYE") eqn:Eb; [discriminate|]. apply String.eqb_neq in Eb.
      destruct (String.eqb (e_tag ev) "INIT") eqn:Ei.
      * apply bind_ok in H as (rs' & E & H). apply IH in E as (E1 & E2 & E3). injection H as <-.
        apply String.eqb_eq in Ei.
        assert (O : one_round [ev]) by (exists ev, []; repeat split; [assumption|constructor]).
        split; [|split; [constructor; assumption|]].
        -- destruct cur; cbn [List.concat app]; rewrite E1; reflexivity.
        -- destruct cur as [l|]; [intros Ol; constructor|]; auto.
      * apply String.eqb_neq in Ei. destruct cur as [l|]; [|discriminate].
        apply IH in H as (E1 & E2 & E3). split; [|split; [constructor; assumption|]].
        -- rewrite E1, <- app_assoc. reflexivity.
        -- intros (e0 & rest & -> & T & F). apply E3. exists e0, (rest ++ [ev]). split; [reflexivity|]. split; [exact T|].
           apply Forall_app. split; [exact F|constructor; [exact Ei|constructor]].
Qed.

Lemma group_bye evs cur rs e : In e evs -> e_tag e = "BYE"%string -> group evs cur <> Ok rs.
Proof.
  intros I T H. apply group_ok in H as (_ & F & _). rewrite Forall_forall in F. apply (F e); [|exact T].
  apply filter_In. split; [exact I|]. unfold keep. now rewrite T.
Qed.

(** A BYE after the first INIT is reported as InvalidGameException. *)
Lemma group_bye_invalid evs : forall cur, (exists e, In e evs /\ e_tag e = "BYE"%string) -> cur <> None ->
  group evs cur = Err InvalidGameException.
Proof.
  induction evs as [|ev r IH]; intros cur (e & I & T) C; [contradiction|]. cbn [group].
  destruct (String.eqb (e_tag ev) "BYE") eqn:Eb.
  { apply String.eqb_eq in Eb. rewrite Eb. reflexivity. }
  assert (R : exists e, In e r /\ e_tag e = "BYE"%string).
  { destruct I as [->|I]; [|eauto]. rewrite T in Eb. discriminate. }
  destruct (skipped_tag (e_tag ev)); [now apply IH|].
  destruct (String.eqb (e_tag ev) "INIT").
  - rewrite IH; [reflexivity|exact R|discriminate].
  - destruct cur; [|contradiction]. apply IH; [exact R|discriminate].
Qed.

(** *** get_rounds, process *)
Lemma get_rounds_ok root go rs : get_rounds root = Ok (go, rs) -> log_type root go /\ group (traverse root) None = Ok rs.
Proof.
  unfold get_rounds. intros H.
  destruct (filter _ (el_children root)) as [|g [|]] eqn:Ef; try discriminate H.
  apply bind_ok in H as (z & E & H). apply bind_ok in H as (r & E2 & H). injection H as <- <-.
  split; [|exact E2]. destruct (dict_get (el_attr g) "type") as [t|] eqn:Et; [|discriminate].
  exists g, t. split; [exact Ef|]. split; [exact Et|]. destruct (py_int t); [now injection E as ->|discriminate].
Qed.

Lemma rounds_partition root go rs : get_rounds root = Ok (go, rs) ->
  List.concat rs = filter keep (traverse root) /\ Forall one_round rs.
Proof. intros H. apply get_rounds_ok in H as [_ H]. apply group_ok in H as (A & _ & B). auto. Qed.

Lemma supported_flags go : supported go <->
  against_human go = 1 /\ no_red go = 0 /\ kansaki go = 0 /\ three_players go = 0.
Proof. unfold supported. destruct (game_flags go) as (-> & -> & -> & _ & -> & _). tauto. Qed.

Lemma flag01 g k : field g k 1 = 0 \/ field g k 1 = 1.
Proof. unfold field. rewrite Z.land_ones by lia. change (2 ^ 1) with 2. pose proof (Z.mod_pos_bound (Z.shiftr g k) 2). lia. Qed.

Lemma process_ok L root out : process L root = Ok out ->
  exists go rs, get_rounds root = Ok (go, rs) /\ supported go /\
    mapM (process_round L go) rs = Ok (combine (fst out) (snd out)) /\
    List.length (fst out) = List.length rs /\ List.length (snd out) = List.length rs.
Proof.
  unfold process. intros H. apply bind_ok in H as ([go rs] & E & H). exists go, rs. split; [exact E|].
  apply bind_ok in H as (u1 & E1 & H). apply bind_ok in H as (u2 & E2 & H). apply bind_ok in H as (u3 & E3 & H).
  apply bind_ok in H as (u4 & E4 & H). apply bind_ok in H as (l & E5 & H). injection H as <-. cbn [fst snd].
  split.
  - apply supported_flags. destruct (game_flags go) as (A & B & C & _ & D & _).
    destruct (Z.eqb_spec (against_human go) 1); [|discriminate].
    destruct (Z.eqb_spec (no_red go) 1); [discriminate|]. destruct (Z.eqb_spec (kansaki go) 1); [discriminate|].
    destruct (Z.eqb_spec (three_players go) 1); [discriminate|].
    pose proof (flag01 go 1). pose proof (flag01 go 2). pose proof (flag01 go 4). lia.
  - rewrite !map_length. pose proof (mapM_length _ _ _ E5). split; [|split; assumption].
    rewrite E5. f_equal. clear. induction l as [|[a b] l IH]; cbn; f_equal; auto.
Qed.

Lemma process_unsupported L root go rs : get_rounds root = Ok (go, rs) -> ~ supported go -> process L root = Err InvalidGameException.
Proof.
  intros E N. unfold process. rewrite E. cbn [bind].
  destruct (Z.eqb_spec (against_human go) 1) as [E1|]; [|reflexivity]. cbn [bind].
  destruct (Z.eqb_spec (no_red go) 1) as [|E2]; [reflexivity|]. cbn [bind].
  destruct (Z.eqb_spec (kansaki go) 1) as [|E3]; [reflexivity|]. cbn [bind].
  destruct (Z.eqb_spec (three_players go) 1) as [|E4]; [reflexivity|].
  exfalso. apply N, supported_flags. destruct (game_flags go) as (A & B & C & _ & D & _).
  pose proof (flag01 go 1). pose proof (flag01 go 2). pose proof (flag01 go 4). lia.
Qed.

(** *** Accepted rounds *)
Lemma run_events_ok L n evs : forall s s' rest, run_events L n s evs = Ok (s', rest) ->
  exists plays, evs = plays ++ match rest with Some l => l | None => [] end /\ foldM (step L n) s plays = Ok s' /\
    Forall (fun e => is_result e = false) plays /\
    match rest with Some l => exists r l', l = r :: l' /\ is_result r = true | None => True end.
Proof.
  induction evs as [|ev r IH]; cbn [run_events]; intros s s' rest H.
  - injection H as <- <-. exists []. repeat split. constructor.
  - destruct (is_result ev) eqn:Er.
    + injection H as <- <-. exists []. repeat split; [constructor|]. eauto.
    + apply bind_ok in H as (s1 & E & H). apply IH in H as (pl & E1 & E2 & E3 & E4). exists (ev :: pl). cbn [app foldM].
      rewrite E1 at 1. rewrite E. cbn [bind]. repeat split; auto.
Qed.

Lemma runs_intro L go e0 evs n s0 s : init_round go e0 = Ok (n, s0) -> foldM (step L n) s0 evs = Ok s ->
  exists pls, runs L go e0 evs n s pls.
Proof.
  intros E0 E. destruct (steps_plays _ _ _ _ _ E) as (pls & Ep & _). exists pls, s0. auto.
Qed.

Lemma no_neg_get v k : no_negative v = true -> 0 <= vget v k.
Proof.
  unfold no_negative, vget. rewrite forallb_forall. intros H.
  destruct (nth_in_or_default k v 0) as [I| ->]; [|lia]. specialize (H _ I). destruct (Z.ltb_spec (nth k v 0) 0); [discriminate|lia].
Qed.

Lemma init_tag go e0 n s0 : init_round go e0 = Ok (n, s0) -> e_tag e0 = "INIT"%string.
Proof. unfold init_round. intros H. apply bind_ok in H as (u & E & _). apply passert_ok in E. now apply String.eqb_eq. Qed.

Lemma accepted_round L go evs half tokens : process_round L go evs = Ok (half, tokens) ->
  exists e0 plays results n s pls, evs = e0 :: plays ++ results /\ e_tag e0 = "INIT"%string /\
    results <> [] /\ Forall result_event results /\ Forall (fun e => ~ result_event e) plays /\
    runs L go e0 plays n s pls /\
    half = map (map_half (observe s)) (rev (s_half s)) /\ tokens = s_tokens s /\
    (forall k, 0 <= vget (s_rem s) k) /\ (forall p k, 0 <= vget (row (s_pov s) p) k).
Proof.
  unfold process_round. intros H. destruct evs as [|e0 r]; [discriminate|].
  apply bind_ok in H as ([n s0] & E0 & H). apply bind_ok in H as ([s res] & E1 & H).
  apply bind_ok in H as (cs & E2 & H). apply bind_ok in H as (u1 & E3 & H). apply bind_ok in H as (u2 & E4 & H).
  apply Ok_inj in H. apply passert_ok in E3, E4.
  pose proof (init_tag _ _ _ _ E0) as T.
  destruct (run_events_ok _ _ _ _ _ _ E1) as (plays & Ep & Ef & Fp & Fr).
  assert (R : forall l, mapM check_result l = Ok cs -> Forall result_event l).
  { intros l Hl. apply mapM_ok in Hl. clear - Hl. induction Hl as [|x y l l' Hx _ IH]; constructor; [|exact IH].
    unfold check_result in Hx. apply bind_ok in Hx as (u & Ex & _). apply passert_ok in Ex. now apply result_iff. }
  destruct res as [l|].
  - destruct Fr as (rr & l' & -> & Hr). destruct (runs_intro _ _ _ _ _ _ _ E0 Ef) as (pls & Hruns).
    exists e0, plays, (rr :: l'), n, s, pls. split; [now rewrite Ep|]. split; [exact T|]. split; [discriminate|].
    split; [now apply R|]. split.
    { eapply Forall_impl; [|exact Fp]. intros e He Q. apply result_iff in Q. congruence. }
    split; [exact Hruns|]. inversion H. split; [reflexivity|]. split; [reflexivity|].
    split; [intros k; now apply no_neg_get|]. intros p k. unfold row. destruct (nth_in_or_default p (s_pov s) []) as [I| ->].
    + apply no_neg_get. rewrite forallb_forall in E4. now apply E4.
    + unfold vget. destruct k; cbn; lia.
  - exfalso. apply R in E2. inversion E2 as [|? ? Q _]; subst. unfold result_event in Q. rewrite T in Q. destruct Q; discriminate.
Qed.

(** Every point inside a run is itself a run. *)
Lemma foldM_app {A S} (f : S -> A -> res S) l1 l2 s s' : foldM f s (l1 ++ l2) = Ok s' ->
  exists s1, foldM f s l1 = Ok s1 /\ foldM f s1 l2 = Ok s'.
Proof.
  revert s. induction l1 as [|a l IH]; cbn; intros s H; [eauto|]. apply bind_ok in H as (s2 & E & H).
  rewrite E. cbn. now apply IH.
Qed.
Lemma runs_prefix L go e0 evs1 evs2 n s pls : runs L go e0 (evs1 ++ evs2) n s pls ->
  exists s1 pls1 pls2, runs L go e0 evs1 n s1 pls1 /\ pls = pls1 ++ pls2 /\ foldM (step L n) s1 evs2 = Ok s /\
    map play_of evs2 = map Some pls2.
Proof.
  intros (s0 & E0 & E & Ep). apply foldM_app in E as (s1 & E1 & E2).
  destruct (runs_intro _ _ _ _ _ _ _ E0 E1) as (pls1 & R). exists s1, pls1, (skipn (List.length pls1) pls). split; [exact R|].
  destruct R as (s0' & _ & _ & Ep1). rewrite map_app, Ep1 in Ep.
  assert (Q : pls = pls1 ++ skipn (List.length pls1) pls /\ map play_of evs2 = map Some (skipn (List.length pls1) pls)).
  { clear - Ep. revert pls Ep. induction pls1 as [|a l IH]; cbn; intros pls Ep; [auto|].
    destruct pls as [|b pls]; [discriminate|]. cbn in Ep. injection Ep as <- Ep. destruct (IH _ Ep) as [Q1 Q2].
    cbn [skipn]. split; [now f_equal|exact Q2]. }
  destruct Q. auto.
Qed.

(** Unseen counts only go down. *)
Lemma num_le_app k a b : num k a <= num k (a ++ b).
Proof. rewrite num_app. pose proof (num_nonneg k b). lia. Qed.
Lemma seen_mono L go e0 evs1 evs2 n s1 s2 pls1 pls2 :
  runs L go e0 evs1 n s1 pls1 -> runs L go e0 evs2 n s2 (pls1 ++ pls2) ->
  forall k, (k < 37)%nat -> vget (s_rem s2) k <= vget (s_rem s1) k /\
   forall p, (p < 4)%nat -> vget (row (s_pov s2) p) k <= vget (row (s_pov s1) p) k.
Proof.
  intros R1 R2 k Hk. destruct (seen_inv_holds _ _ _ _ _ _ _ R1 k Hk) as [A1 B1].
  destruct (seen_inv_holds _ _ _ _ _ _ _ R2 k Hk) as [A2 B2].
  unfold all_drawn, indicators, drawn, discards_of_others, shown_by_others in *. split.
  - rewrite A1, A2, !flat_map_app. repeat match goal with |- context[num k (?a ++ ?b)] => pose proof (num_le_app k a b); generalize dependent (num k (a ++ b)); intros end.
    destruct (Nat.ltb k 34); lia.
  - intros p Hp. rewrite (B1 p Hp), (B2 p Hp), !flat_map_app.
    repeat match goal with |- context[num k (?a ++ ?b)] => pose proof (num_le_app k a b); generalize dependent (num k (a ++ b)); intros end.
    destruct (Nat.ltb k 34); lia.
Qed.
