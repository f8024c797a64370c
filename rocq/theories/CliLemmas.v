From Coq Require Import ZArith List Bool String Ascii Lia Arith.
From Verif Require Import Base Train SpecTrain TrainLemmas Cli SpecCli.
Import ListNotations.
Open Scope Z_scope.

(** ** Characters *)
Lemma blank_spec c : blank c = true <-> ((9 <= nat_of_ascii c <= 13)%nat \/ (28 <= nat_of_ascii c <= 32)%nat).
Proof. unfold blank. rewrite orb_true_iff, !andb_true_iff, !Nat.leb_le. tauto. Qed.

Lemma digit_code c d : digit_of c = Some d -> (48 <= nat_of_ascii c <= 57)%nat.
Proof.
  unfold digit_of. destruct ((48 <=? Z.of_nat (nat_of_ascii c)) && (Z.of_nat (nat_of_ascii c) <=? 57)) eqn:E; [|discriminate].
  intros _. apply andb_true_iff in E as [A B]. apply Z.leb_le in A, B. lia.
Qed.

Lemma digit_not_blank c d : digit_of c = Some d -> blank c = false.
Proof. intros H. apply digit_code in H. destruct (blank c) eqn:B; [|reflexivity]. apply blank_spec in B. lia. Qed.

Lemma blank_not_digit c : blank c = true -> digit_of c = None.
Proof. intros B. destruct (digit_of c) eqn:D; [|reflexivity]. apply digit_not_blank in D. congruence. Qed.

Lemma blanks_lstrip s : blanks s <-> lstrip s = EmptyString.
Proof.
  induction s as [|c s IH]; [now cbn|]. cbn [blanks lstrip]. destruct (blank c) eqn:B.
  - rewrite <- IH. apply blank_spec in B. tauto.
  - split; [|discriminate]. intros [H _]. apply blank_spec in H. congruence.
Qed.

Lemma lstrip_blanks b s : blanks b -> lstrip (b ++ s) = lstrip s.
Proof.
  induction b as [|c b IH]; intros B; [reflexivity|]. cbn [blanks] in B. destruct B as [B1 B2].
  cbn [String.append lstrip]. apply blank_spec in B1. rewrite B1. now apply IH.
Qed.

Lemma lstrip_split s : exists b, s = (b ++ lstrip s)%string /\ blanks b.
Proof.
  induction s as [|c s (b & E & B)]; [now exists EmptyString|]. cbn [lstrip]. destruct (blank c) eqn:Q.
  - exists (String c b). split; [cbn; now rewrite <- E|]. cbn [blanks]. split; [now apply blank_spec|exact B].
  - now exists EmptyString.
Qed.

(** ** Groups of digits *)
Definition digs (s : string) : Prop := exists v, digits_acc 0 s = Some v.

Lemma digs_any s : digs s -> forall a, exists v, digits_acc a s = Some v.
Proof.
  intros (v & H). revert H. generalize 0 at 1. revert v. induction s as [|c s IH]; intros v a H b; cbn [digits_acc] in *; [eauto|].
  destruct (digit_of c); [|discriminate]. exact (IH _ _ H _).
Qed.

Lemma digits_app s t : forall a, digits_acc a (s ++ t) = match digits_acc a s with Some v => digits_acc v t | None => None end.
Proof. induction s as [|c s IH]; intros a; [reflexivity|]. cbn [String.append digits_acc]. destruct (digit_of c); [apply IH|reflexivity]. Qed.

Lemma concat_cons g l : String.concat "" (g :: l) = (g ++ String.concat "" l)%string.
Proof. destruct l as [|h l]; cbn [String.concat]; [now rewrite sapp_nil|reflexivity]. Qed.

Lemma joined_char c g l : joined (String c g :: l) = String c (joined (g :: l)).
Proof. destruct l; reflexivity. Qed.

Lemma joined_nil g l : joined (EmptyString :: g :: l) = String "_" (joined (g :: l)).
Proof. reflexivity. Qed.

Definition stops (r : string) : Prop :=
  match r with EmptyString => True | String c _ => digit_of c = None /\ c <> "_"%char end.

Lemma grouped_sound s : forall after acc z r, grouped after acc s = Some (z, r) ->
  stops r /\ exists g l, s = (joined (g :: l) ++ r)%string /\ digs g /\ (after = false -> g <> EmptyString) /\
    (forall h, In h l -> h <> EmptyString /\ digs h) /\ digits_acc acc (String.concat "" (g :: l)) = Some z.
Proof.
  induction s as [|c s IH]; intros after acc z r H; cbn [grouped] in H.
  - destruct after; [|discriminate]. injection H as <- <-. split; [exact I|]. exists EmptyString, []. split; [reflexivity|].
    split; [now exists 0|]. split; [discriminate|]. split; [intros h []|reflexivity].
  - destruct (digit_of c) as [d|] eqn:D.
    + destruct (IH _ _ _ _ H) as (S & g & l & -> & G & _ & L & V). split; [exact S|]. exists (String c g), l.
      split; [now rewrite joined_char|]. split.
      * destruct (digs_any g G d) as (v & E). exists v. cbn [digits_acc]. now rewrite D.
      * split; [discriminate|]. split; [exact L|]. rewrite concat_cons in V |- *. cbn [String.append digits_acc]. now rewrite D.
    + destruct (Ascii.eqb_spec c "_"%char) as [->|N].
      * destruct after; [|discriminate]. destruct (IH _ _ _ _ H) as (S & g & l & -> & G & N & L & V). split; [exact S|].
        exists EmptyString, (g :: l). split; [reflexivity|]. split; [now exists 0|]. split; [discriminate|]. split.
        -- intros h [<-|I]; [split; [now apply N|exact G]|now apply L].
        -- rewrite concat_cons. exact V.
      * destruct after; [|discriminate]. injection H as <- <-. split; [now split|]. exists EmptyString, []. split; [reflexivity|].
        split; [now exists 0|]. split; [discriminate|]. split; [intros h []|reflexivity].
Qed.

Lemma grouped_complete : forall l g after acc z r, stops r -> digs g -> (after = false -> g <> EmptyString) ->
  (forall h, In h l -> h <> EmptyString /\ digs h) -> digits_acc acc (String.concat "" (g :: l)) = Some z ->
  grouped after acc (joined (g :: l) ++ r) = Some (z, r).
Proof.
  intros l. induction l as [|h l IHl].
  - intros g. induction g as [|c g IH]; intros after acc z r S G N L V.
    + cbn in V. injection V as <-. destruct after; [|now elim N]. cbn [joined String.append].
      destruct r as [|c r]; [reflexivity|]. destruct S as [S1 S2]. cbn [grouped]. rewrite S1.
      destruct (Ascii.eqb_spec c "_"%char); [contradiction|reflexivity].
    + cbn [joined String.append grouped]. cbn [String.concat digits_acc] in V. destruct (digit_of c) as [d|] eqn:D; [|discriminate].
      apply IH; [exact S| |discriminate|exact L|exact V].
      destruct G as (v & G). cbn [digits_acc] in G. rewrite D in G. clear -G. revert G. generalize (10 * 0 + d). revert v.
      assert (Q : forall g v a, digits_acc a g = Some v -> digs g).
      { clear. induction g as [|c g IH]; intros v a H; [now exists 0|]. cbn [digits_acc] in H. unfold digs. cbn [digits_acc].
        destruct (digit_of c); [|discriminate]. destruct (digs_any g (IH _ _ H) (10 * 0 + z)) as (w & E). eauto. }
      intros v a H. exact (Q _ _ _ H).
  - intros g. induction g as [|c g IH]; intros after acc z r S G N L V.
    + destruct after; [|now elim N]. rewrite joined_nil. cbn [String.append grouped]. change (digit_of "_"%char) with (@None Z). cbn iota.
      destruct (L h (or_introl eq_refl)) as [L1 L2].
      apply IHl; [exact S|exact L2|intros _; exact L1|intros k K; apply L; now right|]. rewrite concat_cons in V. exact V.
    + rewrite joined_char. cbn [String.append grouped]. rewrite concat_cons in V. cbn [String.append digits_acc] in V.
      destruct (digit_of c) as [d|] eqn:D; [|discriminate].
      apply IH; [exact S| |discriminate|exact L|rewrite concat_cons; exact V].
      destruct G as (v & G). cbn [digits_acc] in G. rewrite D in G. clear -G. revert G. generalize (10 * 0 + d). revert v.
      assert (Q : forall g v a, digits_acc a g = Some v -> digs g).
      { clear. induction g as [|c g IH]; intros v a H; [now exists 0|]. cbn [digits_acc] in H. unfold digs. cbn [digits_acc].
        destruct (digit_of c); [|discriminate]. destruct (digs_any g (IH _ _ H) (10 * 0 + z)) as (w & E). eauto. }
      intros v a H. exact (Q _ _ _ H).
Qed.

Lemma blanks_stop b : blanks b -> stops b.
Proof.
  destruct b as [|c b]; [easy|]. intros [B _]. apply blank_spec in B. split; [now apply blank_not_digit|]. intros ->. discriminate B.
Qed.

(** ** read_int *)
Definition body (neg : bool) (s : string) : res Z :=
  match grouped false 0 s with
  | Some (z, r) => if String.eqb (lstrip r) EmptyString then Ok (if neg then - z else z) else Err ValueError
  | None => Err ValueError
  end.

Lemma body_spec neg s z : body neg s = Ok z <->
  exists groups b2 a, s = (joined groups ++ b2)%string /\ blanks b2 /\ groups <> [] /\ (forall g, In g groups -> exists v, numeral g v) /\
    numeral (String.concat "" groups) a /\ z = if neg then - a else a.
Proof.
  unfold body. split.
  - destruct (grouped false 0 s) as [[y r]|] eqn:G; [|discriminate]. destruct (String.eqb_spec (lstrip r) EmptyString) as [B|B]; [|discriminate].
    intros H. injection H as <-. apply blanks_lstrip in B. destruct (grouped_sound _ _ _ _ _ G) as (_ & g & l & -> & D & N & L & V).
    exists (g :: l), r, y. split; [reflexivity|]. split; [exact B|]. split; [discriminate|]. split; [|split; [|reflexivity]].
    + intros h [<-|I].
      * destruct D as (v & D). exists v. split; [now apply N|exact D].
      * destruct (L h I) as [L1 (v & L2)]. exists v. now split.
    + split; [|exact V]. rewrite concat_cons. destruct g; [now elim N|discriminate].
  - intros (groups & b2 & a & -> & B & N & L & V & ->). destruct groups as [|g l]; [now elim N|].
    rewrite (grouped_complete l g false 0 a b2).
    + apply blanks_lstrip in B. rewrite B. reflexivity.
    + now apply blanks_stop.
    + destruct (L g (or_introl eq_refl)) as (v & _ & E). now exists v.
    + intros _. destruct (L g (or_introl eq_refl)) as (v & E & _). exact E.
    + intros h I. destruct (L h (or_intror I)) as (v & E & E'). split; [exact E|now exists v].
    + exact (proj2 V).
Qed.

Lemma body_err neg s e : body neg s = Err e -> e = ValueError.
Proof. unfold body. destruct (grouped false 0 s) as [[y r]|]; [destruct (String.eqb (lstrip r) "")|]; intros H; try discriminate H; injection H as <-; reflexivity. Qed.

Lemma joined_head groups : groups <> [] -> (forall g, In g groups -> exists v, numeral g v) ->
  exists c t d, joined groups = String c t /\ digit_of c = Some d.
Proof.
  destruct groups as [|g l]; intros N L; [now elim N|]. destruct (L g (or_introl eq_refl)) as (v & E & D).
  destruct g as [|c g]; [now elim E|]. cbn [digits_acc] in D. destruct (digit_of c) as [d|] eqn:Q; [|discriminate].
  exists c, (joined (g :: l)), d. split; [apply joined_char|exact Q].
Qed.

Lemma read_int_body s : read_int s = match lstrip s with
  | String c r => if Ascii.eqb c "-"%char then body true r else if Ascii.eqb c "+"%char then body false r else body false (lstrip s)
  | EmptyString => body false (lstrip s)
  end.
Proof.
  unfold read_int, body. destruct (lstrip s) as [|c r]; [reflexivity|]. destruct (Ascii.eqb c "-"); [reflexivity|].
  destruct (Ascii.eqb c "+"); reflexivity.
Qed.

Lemma read_int_spec s z : read_int s = Ok z <-> spells s z.
Proof.
  rewrite read_int_body. split.
  - intros H. destruct (lstrip_split s) as (b1 & E & B1). destruct (lstrip s) as [|c r] eqn:Q.
    { apply body_spec in H as (gs & b2 & a & X & _ & N & L & _ & _). destruct (joined_head gs N L) as (c & t & d & J & _). rewrite J in X. discriminate X. }
    destruct (Ascii.eqb_spec c "-"%char) as [->|N1].
    { apply body_spec in H as (gs & b2 & a & -> & B2 & N & L & V & ->). exists b1, "-"%string, gs, b2, a. rewrite E. repeat split; auto; apply V. }
    destruct (Ascii.eqb_spec c "+"%char) as [->|N2].
    { apply body_spec in H as (gs & b2 & a & -> & B2 & N & L & V & ->). exists b1, "+"%string, gs, b2, a. rewrite E. repeat split; auto; apply V. }
    apply body_spec in H as (gs & b2 & a & X & B2 & N & L & V & ->). exists b1, EmptyString, gs, b2, a. rewrite E, X. repeat split; auto; apply V.
  - intros (b1 & sign & gs & b2 & a & -> & B1 & B2 & N & L & V & S). rewrite lstrip_blanks by exact B1.
    destruct (joined_head gs N L) as (c & t & d & J & D).
    assert (K : lstrip (joined gs ++ b2) = (joined gs ++ b2)%string).
    { rewrite J. cbn [String.append lstrip]. now rewrite (digit_not_blank c d D). }
    assert (F : forall (neg : bool) w, w = (if neg then - a else a) -> body neg (joined gs ++ b2) = Ok w).
    { intros neg w ->. apply body_spec. exists gs, b2, a. auto 10. }
    destruct S as [[[->| ->] ->]|[-> ->]].
    + cbn [String.append]. rewrite K. rewrite J at 1. cbn [String.append]. pose proof (digit_code c d D) as C.
      destruct (Ascii.eqb_spec c "-"%char) as [->|_]; [cbn in C; lia|]. destruct (Ascii.eqb_spec c "+"%char) as [->|_]; [cbn in C; lia|].
      now apply F.
    + now apply (F false).
    + now apply (F true).
Qed.

Lemma read_int_err s e : read_int s = Err e -> e = ValueError.
Proof.
  rewrite read_int_body. destruct (lstrip s) as [|c r]; [apply body_err|].
  destruct (Ascii.eqb c "-"); [apply body_err|]. destruct (Ascii.eqb c "+"); apply body_err.
Qed.
