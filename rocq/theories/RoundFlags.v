(** Scores, sticks, flags and counters kept by the event loop. *)
From Coq Require Import ZArith List Bool String Ascii Lia PeanoNat Permutation.
From Verif Require Import Base Constants Naki Decision Tokens GameInfo Agari Process VecLemmas
  SpecMeld SpecTokens SpecRound RoundLemmas RoundInv RoundTiles RoundInit RoundBook.
Import ListNotations.
Open Scope Z_scope.

Lemma filter_len_app {A} (f : A -> bool) a b : Z.of_nat (List.length (filter f (a ++ b))) =
  Z.of_nat (List.length (filter f a)) + Z.of_nat (List.length (filter f b)).
Proof. rewrite filter_app, app_length. lia. Qed.
Lemma sticks_app p a b : sticks p (a ++ b) = sticks p a + sticks p b.
Proof. apply filter_len_app. Qed.
Lemma all_sticks_app a b : all_sticks (a ++ b) = all_sticks a + all_sticks b.
Proof. apply filter_len_app. Qed.
Lemma draws_app a b : draws (a ++ b) = draws a + draws b.
Proof. apply filter_len_app. Qed.
Lemma kans_app a b : kans (a ++ b) = kans a + kans b.
Proof. apply filter_len_app. Qed.
Lemma new_doras_app a b : new_doras (a ++ b) = new_doras a + new_doras b.
Proof. apply filter_len_app. Qed.

(** ** Scores and sticks *)
Definition score_inv (e0 : event) (h : list play) (s : rstate) : Prop :=
  List.length (s_scores s) = List.length (initial_scores e0) /\
  (forall p, (p < List.length (initial_scores e0))%nat ->
     vget (s_scores s) p = vget (initial_scores e0) p - 10 * sticks (Z.of_nat p) h) /\
  s_kyotaku s = initial_sticks e0 + all_sticks h /\
  vsum (s_scores s) + 10 * s_kyotaku s = vsum (initial_scores e0) + 10 * initial_sticks e0.

Lemma score_inv_holds L go e0 evs n s pls : runs L go e0 evs n s pls -> score_inv e0 pls s.
Proof.
  intros R. eapply (runs_inv _ _ _ _ _ _ _ (score_inv e0)) in R; [exact (proj1 R)| | |]; clear.
  - intros s0 In0. unfold score_inv. rewrite (in_scores _ _ In0), (in_kyotaku _ _ In0).
    change (all_sticks []) with 0. split; [reflexivity|]. split; [|split; [lia|reflexivity]].
    intros p Hp. change (sticks (Z.of_nat p) []) with 0. lia.
  - intros h a s W S (I1 & I2 & I3 & I4) G. pose proof (guard_seat a s S G) as Q. unfold score_inv. rewrite ap_scores, ap_kyotaku.
    rewrite all_sticks_app.
    destruct a as [w t|w t|w c|w|w|t];
      try (split; [exact I1|]; split; [intros p Hp; rewrite sticks_app; rewrite (I2 p Hp); unfold sticks at 3; cbn [filter List.length]; lia|];
           split; [unfold all_sticks at 2; cbn [filter List.length]; lia|exact I4]).
    destruct G as (_ & _ & Gl). split; [now rewrite length_vadd|]. split; [|split].
    + intros p Hp. rewrite sticks_app, vget_vadd, (I2 p Hp) by lia. unfold sticks at 3. cbn [filter].
      rewrite seat_eqb by lia. destruct (Nat.eqb (Z.to_nat w) p); cbn [List.length]; lia.
    + change (all_sticks [PlReach2 w]) with 1. lia.
    + rewrite vsum_vadd by exact Gl. lia.
  - intros h s s' E I. apply strip_fields in E as (_ & _ & _ & _ & _ & _ & _ & _ & E1 & E2 & _). unfold score_inv in *. rewrite <- E1, <- E2. exact I.
Qed.

(** ** Flags *)
Definition yes (b : bool) : Z := if b then 1 else 0.

Definition flag_inv (h : list play) (s : rstate) : Prop :=
  forall p, (p < 4)%nat ->
    vget (s_reaches s) p = yes (0 <? sticks (Z.of_nat p) h) /\
    (vget (s_dreaches s) p = 0 \/ vget (s_dreaches s) p = 1 /\ 0 < sticks (Z.of_nat p) h) /\
    ((vget (s_menzen s) p = 0 /\ opened (Z.of_nat p) h) \/ (vget (s_menzen s) p = 1 /\ ~ opened (Z.of_nat p) h)) /\
    forall k, (k < 37)%nat -> vget (row (s_sute s) p) k = yes (0 <? num k (discarded (Z.of_nat p) h)).

Lemma sticks_nonneg p h : 0 <= sticks p h.
Proof. unfold sticks. lia. Qed.
Lemma from_who_mod c : from_who c = c mod 4.
Proof. unfold from_who. change 3 with (Z.ones 2). rewrite Z.land_ones by lia. reflexivity. Qed.

Lemma opened_app p h a : opened p (h ++ [a]) <-> opened p h \/ match a with PlCall w c => w = p /\ c mod 4 <> 0 | _ => False end.
Proof.
  unfold opened. split.
  - intros (c & I & N). apply in_app_or in I as [I|[E|[]]]; [left; eauto|right]. subst a. auto.
  - intros [(c & I & N)|H]; [exists c; split; [apply in_or_app; now left|exact N]|].
    destruct a; try contradiction. destruct H as [-> N]. exists code. split; [apply in_or_app; right; now left|exact N].
Qed.

Lemma tix_exists t k : (k < 37)%nat -> existsb (Nat.eqb k) (tix t) = (0 <? num k [tid t]).
Proof.
  intros Hk. rewrite <- tix_count by exact Hk. induction (tix t) as [|i l IH]; [reflexivity|].
  cbn [existsb count_occ]. destruct (Nat.eq_dec i k) as [->|N].
  - rewrite Nat.eqb_refl. symmetry. apply Z.ltb_lt. lia.
  - destruct (Nat.eqb_spec k i); [congruence|]. exact IH.
Qed.

Lemma flag_inv_holds L go e0 evs n s pls : runs L go e0 evs n s pls -> flag_inv pls s.
Proof.
  intros R. eapply (runs_inv _ _ _ _ _ _ _ flag_inv) in R; [exact (proj1 R)| | |]; clear.
  - intros s0 In0 p Hp. destruct (in_rest _ _ In0) as (_ & -> & -> & _ & -> & _).
    split; [|split; [|split]].
    + unfold vget. now rewrite nth_repeat.
    + left. unfold vget. now rewrite nth_repeat.
    + right. split; [do 4 (destruct p as [|p]; [reflexivity|]); lia|]. intros (c & [] & _).
    + intros k Hk. now rewrite (in_sute _ _ In0).
  - intros h a s W S I G p Hp. destruct (I p Hp) as (I1 & I2 & I3 & I4). pose proof (guard_seat a s S G) as Q.
    destruct W as (_ & _ & _ & _ & _ & _ & _ & _ & _ & L1 & L2 & L3 & L4 & _ & L5 & _).
    rewrite ap_reaches, ap_dreaches, ap_menzen, ap_sute, sticks_app, discarded_app.
    assert (L6 : List.length (row (s_sute s) p) = 37%nat) by (apply row_length; [assumption|lia]).
    pose proof (opened_app (Z.of_nat p) h a) as Op. pose proof (sticks_nonneg (Z.of_nat p) h) as SN.
    assert (KEEP : match a with PlReach2 w => False | _ => True end -> sticks (Z.of_nat p) [a] = 0) by (destruct a; reflexivity || contradiction).
    split; [|split; [|split]].
    + destruct a; try (rewrite KEEP by exact Logic.I; rewrite Z.add_0_r; exact I1).
      rewrite vget_vset by lia. unfold sticks at 2. cbn [filter]. rewrite seat_eqb by lia.
      destruct (Nat.eqb (Z.to_nat who) p); cbn [List.length].
      * unfold yes. replace (0 <? _) with true; [reflexivity|]. symmetry. apply Z.ltb_lt. lia.
      * rewrite Z.add_0_r. exact I1.
    + destruct a; try (rewrite KEEP by exact Logic.I; rewrite Z.add_0_r; exact I2).
      unfold sticks at 2. cbn [filter]. rewrite seat_eqb by lia.
      destruct (_ && _).
      * rewrite vget_vset by lia. destruct (Nat.eqb (Z.to_nat who) p); cbn [List.length]; [right; lia|].
        destruct I2 as [I2|I2]; [left; exact I2|right; lia].
      * destruct I2 as [I2|[I2 I2']]; [left; exact I2|right; split; [exact I2|lia]].
    + destruct a; try (destruct I3 as [[A B]|[A B]]; [left; split; [exact A|apply Op; now left]|right; split; [exact A|intros J; apply Op in J as [J|[]]; contradiction]]).
      rewrite from_who_mod in *. destruct (Z.eqb_spec (code mod 4) 0) as [E|E]; cbn [negb].
      * destruct I3 as [[A B]|[A B]]; [left; split; [exact A|apply Op; now left]|right; split; [exact A|]].
        intros J. apply Op in J as [J|[_ J]]; contradiction.
      * rewrite vget_vset by lia. destruct (Nat.eqb_spec (Z.to_nat who) p) as [Ep|Ep].
        -- left. split; [reflexivity|]. apply Op. right. split; [lia|exact E].
        -- destruct I3 as [[A B]|[A B]]; [left; split; [exact A|apply Op; now left]|right; split; [exact A|]].
           intros J. apply Op in J as [J|[J _]]; [contradiction|]. lia.
    + intros k Hk. specialize (I4 k Hk). destruct a; try (cbn [discarded flat_map]; rewrite app_nil_r; exact I4).
      rewrite row_upd by lia. unfold discarded at 2. cbn [flat_map]. rewrite app_nil_r. rewrite seat_eqb by lia.
      destruct (Nat.eqb_spec (Z.to_nat who) p) as [E|E]; [|rewrite app_nil_r; exact I4].
      rewrite E, vget_vsets, tix_exists, num_app by lia. pose proof (num_nonneg k (discarded (Z.of_nat p) h)) as N1.
      pose proof (num_nonneg k [tid tile]) as N2. rewrite I4. unfold yes.
      destruct (Z.ltb_spec 0 (num k [tid tile])), (Z.ltb_spec 0 (num k (discarded (Z.of_nat p) h))),
        (Z.ltb_spec 0 (num k (discarded (Z.of_nat p) h) + num k [tid tile])); lia.
  - intros h s s' E I. apply strip_fields in E as (_ & _ & _ & _ & _ & E1 & _ & _ & _ & _ & E2 & E3 & _ & E4 & _). unfold flag_inv in *.
    rewrite <- E1, <- E2, <- E3, <- E4. exact I.
Qed.

(** ** Counters and indicators *)
Definition count_inv (e0 : event) (h : list play) (s : rstate) : Prop :=
  s_rtsumo s = 70 - draws h - kans h - new_doras h /\ map tid (s_doras s) = first_indicator e0 :: indicators h.

Lemma count_inv_holds L go e0 evs n s pls : runs L go e0 evs n s pls -> count_inv e0 pls s.
Proof.
  intros R. eapply (runs_inv _ _ _ _ _ _ _ (count_inv e0)) in R; [exact (proj1 R)| | |]; clear.
  - intros s0 In0. split; [destruct (in_rest _ _ In0) as (-> & _); reflexivity|]. exact (in_doras _ _ In0).
  - intros h a s W S [I1 I2] G. unfold count_inv. rewrite ap_rtsumo, ap_doras, draws_app, kans_app, new_doras_app, I1.
    unfold indicators. rewrite flat_map_app. fold (indicators h).
    destruct a; cbn [flat_map]; rewrite ?app_nil_r, ?map_app, ?I2.
    all: (split; [|reflexivity]).
    all: unfold draws, kans, new_doras; cbn [filter List.length]; try lia.
    match goal with |- context[if ?b then _ else _] => destruct b end; cbn [List.length]; lia.
  - intros h s s' E I. apply strip_fields in E as (_ & _ & _ & _ & _ & _ & E1 & E2 & _). unfold count_inv in *. rewrite <- E1, <- E2. exact I.
Qed.
