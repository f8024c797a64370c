(** The bookkeeping invariants of the event loop, for any number of events. *)
From Coq Require Import ZArith List Bool String Ascii Lia PeanoNat Permutation.
From Verif Require Import Base Constants Naki Decision Tokens GameInfo Agari Process VecLemmas
  SpecMeld SpecTokens SpecRound RoundLemmas RoundInv RoundTiles RoundInit.
Import ListNotations.
Open Scope Z_scope.

Lemma runs_plays L go e0 evs n s pls : runs L go e0 evs n s pls ->
  exists s0, inited e0 s0 /\ init_round go e0 = Ok (n, s0) /\ Forall seated pls /\ foldM (astep L n) s0 pls = Ok s.
Proof.
  intros (s0 & E0 & E & Ep). exists s0. split; [now apply init_inited in E0|]. split; [exact E0|].
  apply steps_plays in E as (pls' & Ep' & Sp & E). rewrite Ep in Ep'.
  assert (pls' = pls).
  { clear - Ep'. revert pls' Ep'. induction pls as [|a pls IH]; intros [|b pls'] H; try discriminate; [reflexivity|].
    cbn in H. injection H as -> H. f_equal. now apply IH. }
  subst. auto.
Qed.

(** Invariants about the bookkeeping variables, from the start of the round. *)
Lemma runs_inv L go e0 evs n s pls (I : list play -> rstate -> Prop) :
  runs L go e0 evs n s pls ->
  (forall s0, inited e0 s0 -> I [] s0) ->
  (forall h a s, wf s -> seated a -> I h s -> guard a s -> I (h ++ [a]) (apply a s)) ->
  (forall h s s', strip s = strip s' -> I h s -> I h s') ->
  I pls s /\ wf s.
Proof.
  intros H I0 Is It. apply runs_plays in H as (s0 & In0 & _ & Sp & E).
  eapply run_inv; eauto. apply In0.
Qed.

Lemma seat_eqb w p : 0 <= w -> (w =? Z.of_nat p) = Nat.eqb (Z.to_nat w) p.
Proof. intros H. destruct (Z.eqb_spec w (Z.of_nat p)), (Nat.eqb_spec (Z.to_nat w) p); lia. Qed.

Lemma guard_seat a s : seated a -> guard a s -> match a with PlDraw w _ | PlDiscard w _ | PlCall w _ | PlReach2 w => 0 <= w < 4 | _ => True end.
Proof. destruct a; cbn; tauto. Qed.

(** ** Hands, owned tiles *)
Definition hand_inv (e0 : event) (h : list play) (s : rstate) : Prop :=
  forall p, (p < 4)%nat -> exists hl,
    holds (row (s_hands s) p) hl /\
    Permutation (dealt e0 p ++ drawn (Z.of_nat p) h) (discarded (Z.of_nat p) h ++ shown (Z.of_nat p) h ++ hl) /\
    forall k, (k < 37)%nat -> vget (row (s_ht s) p) k = num k hl /\
      vget (row (s_htf s) p) k = num k hl + num k (shown (Z.of_nat p) h) + num k (claimed (Z.of_nat p) h).

Lemma drawn_app p a b : drawn p (a ++ b) = drawn p a ++ drawn p b.
Proof. apply flat_map_app. Qed.
Lemma discarded_app p a b : discarded p (a ++ b) = discarded p a ++ discarded p b.
Proof. apply flat_map_app. Qed.
Lemma shown_app p a b : shown p (a ++ b) = shown p a ++ shown p b.
Proof. apply flat_map_app. Qed.
Lemma claimed_app p a b : claimed p (a ++ b) = claimed p a ++ claimed p b.
Proof. apply flat_map_app. Qed.

Lemma claimed_by_hd c : claimed_by c = match hd_error (claimed_by c) with Some a => [a] | None => [] end.
Proof. unfold claimed_by. destruct (get_exposed c) as [[ex [a|]]|]; reflexivity. Qed.

Lemma hand_inv_holds L go e0 evs n s pls : runs L go e0 evs n s pls -> hand_inv e0 pls s.
Proof.
  intros R. eapply (runs_inv _ _ _ _ _ _ _ (hand_inv e0)) in R; [exact (proj1 R)| | |]; clear.
  - intros s0 In0 p Hp. exists (dealt e0 p). destruct (in_deal _ _ In0 p Hp) as (_ & _ & H). split; [exact H|].
    split; [cbn; now rewrite app_nil_r|]. intros k Hk. destruct (in_vecs _ _ In0 p k Hp Hk) as (A & B & _). unfold shown, claimed. cbn [flat_map]. rewrite A, B, num_nil. split; [reflexivity|lia].
  - intros h a s W S I G p Hp. destruct (I p Hp) as (hl & Hh & P & Hv). pose proof (guard_seat a s S G) as Q.
    rewrite drawn_app, discarded_app, shown_app, claimed_app, ap_hands, ap_ht, ap_htf.
    destruct W as (W1 & W2 & W3 & W4 & W5 & W6 & _).
    destruct a as [w t|w t|w c|w|w|t]; cbn [drawn discarded shown claimed flat_map]; rewrite ?app_nil_r;
      try (exists hl; split; [exact Hh|]; split; [exact P|exact Hv]).
    + rewrite !row_upd by (rewrite ?W1, ?W3, ?W5; lia). rewrite seat_eqb by lia. destruct (Nat.eqb_spec (Z.to_nat w) p) as [E|E];
        [|rewrite ?app_nil_r; exists hl; split; [exact Hh|]; split; [exact P|exact Hv]].
      rewrite E. destruct G as (_ & _ & G & _). rewrite E in G. exists (tid t :: hl).
      split; [apply holds_add; [exact Hh|apply tid_range|]; eapply holds_notin; eauto using tid_range|]. split.
      * rewrite app_assoc, P. rewrite <- !app_assoc. rewrite app_assoc, (app_assoc (discarded _ _)). apply Permutation_app_head.
        symmetry. apply Permutation_cons_append.
      * intros k Hk. destruct (Hv k Hk) as [A B].
        assert (L1 : List.length (row (s_ht s) p) = 37%nat) by (apply row_length; [assumption|lia]).
        assert (L2 : List.length (row (s_htf s) p) = 37%nat) by (apply row_length; [assumption|lia]).
        rewrite !vget_tix, A, B, (num_cons k (tid t) hl) by assumption. split; lia.
    + rewrite !row_upd by (rewrite ?W1, ?W3, ?W5; lia). rewrite seat_eqb by lia. destruct (Nat.eqb_spec (Z.to_nat w) p) as [E|E];
        [|rewrite ?app_nil_r; exists hl; split; [exact Hh|]; split; [exact P|exact Hv]].
      rewrite E. destruct G as (_ & _ & _ & G & _). rewrite E in G.
      destruct (holds_discard _ _ (tid t) Hh (tid_range t) G) as (hl' & P' & H'). exists hl'. split; [exact H'|]. split.
      * rewrite P, P'. rewrite <- app_assoc. apply Permutation_app_head. cbn [app].
        symmetry. apply Permutation_middle.
      * intros k Hk. destruct (Hv k Hk) as [A B].
        assert (L1 : List.length (row (s_ht s) p) = 37%nat) by (apply row_length; [assumption|lia]).
        assert (L2 : List.length (row (s_htf s) p) = 37%nat) by (apply row_length; [assumption|lia]).
        rewrite !vget_tix, A, B by assumption. rewrite (num_perm k _ _ P'), (num_cons k (tid t) hl'). split; lia.
    + rewrite !row_upd by (rewrite ?W1, ?W3, ?W5; lia). rewrite seat_eqb by lia. destruct (Nat.eqb_spec (Z.to_nat w) p) as [E|E].
      2:{ rewrite ?app_nil_r. exists hl. split; [exact Hh|]. split; [exact P|].
          destruct (hd_error (claimed_by c)); [|exact Hv]. rewrite row_upd by (rewrite W5; lia). apply Nat.eqb_neq in E. rewrite E. exact Hv. }
      rewrite E. destruct G as (_ & _ & _ & _ & _ & G). rewrite E in G.
      destruct (holds_expose _ _ _ _ Hh G) as (hl' & P' & H'). exists hl'. split; [exact H'|]. split.
      * rewrite P, P'. now rewrite <- app_assoc.
      * intros k Hk. destruct (Hv k Hk) as [A B].
        assert (L1 : List.length (row (s_ht s) p) = 37%nat) by (apply row_length; [assumption|lia]).
        assert (L2 : List.length (row (s_htf s) p) = 37%nat) by (apply row_length; [assumption|lia]).
        rewrite !vget_tixs, A by assumption. rewrite (num_perm k _ _ P'), !num_app. split; [lia|].
        pose proof (claimed_by_hd c) as Ec. destruct (hd_error (claimed_by c)) as [a|]; rewrite Ec; cbn [map].
        -- rewrite row_upd by (rewrite W5; lia). rewrite Nat.eqb_refl, vget_tix, B, (num_perm k _ _ P'), num_app by assumption. lia.
        -- rewrite num_nil, B, (num_perm k _ _ P'), num_app. lia.
  - intros h s s' E I. apply strip_fields in E as (E1 & E2 & E3 & _). unfold hand_inv in *. rewrite <- E1, <- E2, <- E3. exact I.
Qed.

(** ** Unseen tiles *)
Definition seen_inv (e0 : event) (h : list play) (s : rstate) : Prop :=
  forall k, (k < 37)%nat ->
    vget (s_rem s) k = class_size k - num k (all_dealt e0) - num k [first_indicator e0] - num k (all_drawn h)
       - (if Nat.ltb k 34 then num k (indicators h) else 0) /\
    forall p, (p < 4)%nat -> 
    vget (row (s_pov s) p) k = class_size k - num k (dealt e0 p) - num k [first_indicator e0] - num k (drawn (Z.of_nat p) h)
       - num k (discards_of_others (Z.of_nat p) h) - num k (shown_by_others (Z.of_nat p) h)
       - (if Nat.ltb k 34 then num k (indicators h) else 0).

Lemma seen_inv_holds L go e0 evs n s pls : runs L go e0 evs n s pls -> seen_inv e0 pls s.
Proof.
  intros R. eapply (runs_inv _ _ _ _ _ _ _ (seen_inv e0)) in R; [exact (proj1 R)| | |]; clear.
  - intros s0 In0 k Hk. split.
    + rewrite (in_rem _ _ In0 k Hk). unfold all_drawn, indicators, drawn, discards_of_others, shown_by_others. cbn [flat_map]. rewrite num_nil. destruct (Nat.ltb k 34); lia.
    + intros p Hp. destruct (in_vecs _ _ In0 p k Hp Hk) as (_ & _ & ->). unfold all_drawn, indicators, drawn, discards_of_others, shown_by_others. cbn [flat_map]. rewrite num_nil. destruct (Nat.ltb k 34); lia.
  - intros h a s W S I G k Hk. destruct (I k Hk) as [I1 I2]. pose proof (guard_seat a s S G) as Q.
    destruct W as (W1 & W2 & W3 & W4 & W5 & W6 & W7 & W8 & W9 & _).
    rewrite ap_rem, ap_pov.
    unfold all_drawn, indicators, drawn, discards_of_others, shown_by_others in *. rewrite !flat_map_app.
    assert (LP : forall p, (p < 4)%nat -> List.length (row (s_pov s) p) = 37%nat) by (intros; apply row_length; [assumption|lia]).
    destruct a as [w t|w t|w c|w|w|t]; cbn [flat_map]; rewrite ?app_nil_r.
    + split.
      * rewrite vget_tix, I1, num_app by assumption. lia.
      * intros p Hp. rewrite flat_map_app. cbn [flat_map]. rewrite !flat_map_app. cbn [flat_map]. rewrite ?app_nil_r.
        rewrite row_upd by lia. rewrite seat_eqb by lia. destruct (Nat.eqb_spec (Z.to_nat w) p) as [E|E].
        -- rewrite E, vget_tix, I2, num_app by auto. lia.
        -- rewrite I2, num_app, num_nil by auto. lia.
    + split; [exact I1|].
      intros p Hp. rewrite !flat_map_app. cbn [flat_map]. rewrite ?app_nil_r.
      rewrite row_upd by (rewrite map_length; lia). rewrite !row_map by (right; lia). rewrite seat_eqb by lia.
      destruct (Nat.eqb_spec (Z.to_nat w) p) as [E|E].
      * rewrite E, !vget_tix, I2, !num_app, num_nil by (rewrite ?length_vadds; auto). lia.
      * rewrite vget_tix, I2, !num_app by auto. lia.
    + split; [exact I1|].
      intros p Hp. rewrite !flat_map_app. cbn [flat_map]. rewrite ?app_nil_r.
      rewrite row_map_others by lia. rewrite seat_eqb, (Nat.eqb_sym p) by lia.
      destruct (Nat.eqb_spec (Z.to_nat w) p) as [E|E].
      * rewrite I2, !num_app, num_nil by auto. lia.
      * rewrite vget_tixs, I2, !num_app by auto. lia.
    + split; [exact I1|]. intros p Hp. rewrite !flat_map_app. cbn [flat_map]. rewrite ?app_nil_r. now apply I2.
    + split; [exact I1|]. intros p Hp. rewrite !flat_map_app. cbn [flat_map]. rewrite ?app_nil_r. now apply I2.
    + split.
      * rewrite vget_hd, I1, num_app by assumption. destruct (Nat.ltb k 34); lia.
      * intros p Hp. rewrite !flat_map_app. cbn [flat_map]. rewrite ?app_nil_r. rewrite row_map by (right; lia).
        rewrite vget_hd, I2, !num_app by auto. destruct (Nat.ltb k 34); lia.
  - intros h s s' E I. apply strip_fields in E as (_ & _ & _ & E1 & E2 & _). unfold seen_inv in *. rewrite <- E1, <- E2. exact I.
Qed.
