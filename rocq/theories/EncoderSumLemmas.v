(** Proofs about the sums of embedding rows. *)
From Coq Require Import ZArith List Bool Reals Lra Lia.
From Verif Require Import Base Constants Naki Tokens SpecMeld SpecTokens SpecEncoder TokensLemmas VecLemmas RoundLemmas Tensor Encoder EncoderLemmas EncoderSum.
Import ListNotations.
Open Scope R_scope.

(** ** The player table *)
Lemma base0 d : (d < 2)%nat -> Rpower 10000 (INR (2 * (d / 2)) / 64) = 1.
Proof.
  intros H. replace (d / 2)%nat with 0%nat by (destruct d as [|[|]]; [reflexivity|reflexivity|lia]).
  cbn [Nat.mul INR]. unfold Rdiv. rewrite Rmult_0_l. apply Rpower_O. lra.
Qed.
Lemma player_row0 k : player_row k 0 = sin (IZR k * (2 * PI) / 4).
Proof. unfold player_row. rewrite base0 by lia. cbn [Nat.even]. f_equal. field. Qed.
Lemma player_row1 k : player_row k 1 = cos (IZR k * (2 * PI) / 4).
Proof. unfold player_row. rewrite base0 by lia. cbn [Nat.even]. f_equal. field. Qed.
Lemma quarter k : (0 <= k < 4)%Z ->
  player_row k 0 = IZR (nth (Z.to_nat k) [0; 1; 0; -1]%Z 0%Z) /\ player_row k 1 = IZR (nth (Z.to_nat k) [1; 0; -1; 0]%Z 0%Z).
Proof.
  intros H. rewrite player_row0, player_row1.
  assert (C : k = 0%Z \/ k = 1%Z \/ k = 2%Z \/ k = 3%Z) by lia. destruct C as [-> |[-> |[-> | ->]]]; cbn [Z.to_nat nth Pos.to_nat Pos.iter_op Nat.add].
  - replace (0 * (2 * PI) / 4) with 0 by field. now rewrite sin_0, cos_0.
  - replace (1 * (2 * PI) / 4) with (PI / 2) by field. now rewrite sin_PI2, cos_PI2.
  - replace (2 * (2 * PI) / 4) with PI by field. now rewrite sin_PI, cos_PI.
  - replace (3 * (2 * PI) / 4) with (3 * (PI / 2)) by field. now rewrite sin_3PI2, cos_3PI2.
Qed.
Lemma player_rows_differ k l : (0 <= k < 4)%Z -> (0 <= l < 4)%Z -> (forall d, (d < 2)%nat -> player_row k d = player_row l d) -> k = l.
Proof.
  intros Hk Hl H. destruct (quarter k Hk) as [A1 A2]. destruct (quarter l Hl) as [B1 B2].
  pose proof (H 0%nat ltac:(lia)) as H0. pose proof (H 1%nat ltac:(lia)) as H1. rewrite A1, B1 in H0. rewrite A2, B2 in H1. apply eq_IZR in H0, H1.
  assert (Ck : k = 0%Z \/ k = 1%Z \/ k = 2%Z \/ k = 3%Z) by lia. assert (Cl : l = 0%Z \/ l = 1%Z \/ l = 2%Z \/ l = 3%Z) by lia.
  destruct Ck as [-> |[-> |[-> | ->]]]; destruct Cl as [-> |[-> |[-> | ->]]]; first [reflexivity | exfalso; vm_compute in H0, H1; (discriminate H0 || discriminate H1)].
Qed.
Lemma seat_diff w1 w2 p : (0 <= w1 < 4)%Z -> (0 <= w2 < 4)%Z -> ((w1 - p) mod 4 = (w2 - p) mod 4)%Z -> w1 = w2.
Proof.
  intros H1 H2 E. assert (D : ((w1 - w2) mod 4 = 0)%Z).
  { replace (w1 - w2)%Z with ((w1 - p) - (w2 - p))%Z by lia. rewrite Zminus_mod, E, <- Zminus_mod, Z.sub_diag. reflexivity. }
  apply Z.mod_divide in D; [|lia]. destruct D as [q D]. lia.
Qed.

(** ** Sums *)
Lemma row_sum_app w a b d : row_sum w (a ++ b) d = row_sum w a d + row_sum w b d.
Proof. induction a as [|k a IH]; cbn [app row_sum fold_right]; [unfold row_sum; lra|]. change (row_of w k d + row_sum w (a ++ b) d = row_of w k d + row_sum w a d + row_sum w b d). rewrite IH. lra. Qed.
Lemma row_sum_cons w k a d : row_sum w (k :: a) d = row_of w k d + row_sum w a d.
Proof. reflexivity. Qed.

(** Weights that count how often one row of one table is used. *)
Definition table_eqb (a b : table) : bool :=
  match a, b with TType, TType | TTile, TTile | TPlayer, TPlayer | TTsumogiri, TTsumogiri | TPosition, TPosition | TDuring, TDuring | TPost, TPost => true | _, _ => false end.
Definition zero : weights := MkWeights (fun _ _ => 0) (fun _ _ => 0) (fun _ _ => 0) (fun _ _ => 0) (fun _ _ => 0).
Definition probe (t : table) (i : Z) : weights :=
  let f u := fun j (_ : nat) => if table_eqb t u && (i =? j)%Z then 1 else 0 in MkWeights (f TType) (f TTile) (f TTsumogiri) (f TDuring) (f TPost).
Definition trainable (t : table) : bool := match t with TPlayer | TPosition => false | _ => true end.
Fixpoint uses (t : table) (i : Z) (l : list (table * Z)) : Z :=
  match l with [] => 0 | (u, j) :: r => (if table_eqb t u && (i =? j)%Z then 1 else 0) + uses t i r end.
Lemma probe_sum t i l d : trainable t = true -> row_sum (probe t i) l d = row_sum zero l d + IZR (uses t i l).
Proof.
  intros T. induction l as [|[u j] l IH]; [cbn; lra|]. rewrite !row_sum_cons, IH. cbn [uses]. rewrite plus_IZR.
  replace (row_of (probe t i) (u, j) d) with (row_of zero (u, j) d + (if table_eqb t u && (i =? j)%Z then 1 else 0))
    by (destruct u; cbn [row_of fst snd probe zero w_type w_tile w_tsumogiri w_during w_post]; try lra; destruct t; try discriminate T; cbn [table_eqb andb]; lra).
  destruct (table_eqb t u && (i =? j)%Z); cbn [IZR IPR]; lra.
Qed.
Definition same_input (l1 l2 : list (table * Z)) : Prop := forall w d, (d < 64)%nat -> row_sum w l1 d = row_sum w l2 d.
Lemma same_uses l1 l2 t i : same_input l1 l2 -> trainable t = true -> uses t i l1 = uses t i l2.
Proof.
  intros S T. pose proof (S (probe t i) 0%nat ltac:(lia)) as A. pose proof (S zero 0%nat ltac:(lia)) as B. rewrite !probe_sum in A by exact T. apply eq_IZR. lra.
Qed.

(** ** Events and inputs *)
Lemma uses_pos t i j l : uses t j ((t, i) :: l) = ((if (j =? i)%Z then 1 else 0) + uses t j l)%Z.
Proof. cbn [uses]. replace (table_eqb t t) with true by (destruct t; reflexivity). reflexivity. Qed.

Lemma ordered_distinct player pos e1 e2 t1 t2 l1 l2 : (pos < 150)%nat -> legal_event e1 -> legal_event e2 -> token e1 = Ok t1 -> token e2 = Ok t2 ->
  encode_token ORDERED player pos t1 = Ok l1 -> encode_token ORDERED player pos t2 = Ok l2 -> same_input l1 l2 -> same_event e1 e2.
Proof.
  intros Hp L1 L2 T1 T2 E1 E2 S. rewrite (ordered_rows _ _ _ _ Hp L1 T1) in E1. rewrite (ordered_rows _ _ _ _ Hp L2 T2) in E2. apply Ok_inj in E1, E2. subst l1 l2.
  assert (PL : forall w1 w2, (0 <= w1 < 4)%Z -> (0 <= w2 < 4)%Z -> (forall d, (d < 2)%nat -> player_row ((w1 - player) mod 4) d = player_row ((w2 - player) mod 4) d) -> w1 = w2).
  { intros w1 w2 H1 H2 H. apply (seat_diff w1 w2 player H1 H2), player_rows_differ; [apply Z.mod_pos_bound; lia..|exact H]. }
  pose proof (fun i => same_uses _ _ TType i S eq_refl) as Uy. pose proof (fun i => same_uses _ _ TTile i S eq_refl) as Ut.
  pose proof (fun i => same_uses _ _ TTsumogiri i S eq_refl) as Us. pose proof (fun i => same_uses _ _ TDuring i S eq_refl) as Ud.
  pose proof (fun i => same_uses _ _ TPost i S eq_refl) as Uq.
  destruct e1 as [w1 x1 f1|w1 c1|w1|x1]; destruct e2 as [w2 x2 f2|w2 c2|w2|x2]; cbn [same_event legal_event] in *.
  - assert (Ex : x1 = x2).
    { specialize (Ut x1). destruct f1, f2; cbn [app uses table_eqb andb] in Ut; rewrite Z.eqb_refl in Ut; destruct (Z.eqb_spec x1 x2); lia. }
    assert (Ef : f1 = f2) by (specialize (Us 1%Z); destruct f1, f2; cbn in Us; congruence). split; [|split; assumption]. subst x2 f2.
    apply PL; [apply L1|apply L2|]. intros d Hd. specialize (S zero d ltac:(lia)). destruct f1; rewrite ?row_sum_app, ?row_sum_cons in S; cbn [row_of fst snd] in S; lra.
  - exfalso. specialize (Ut x1). destruct (call_action c2), f1; cbn [app uses table_eqb andb] in Ut; rewrite Z.eqb_refl in Ut; destruct (own_turn_call c2); cbn [table_eqb andb] in Ut; lia.
  - exfalso. specialize (Ut x1). destruct f1; cbn [app uses table_eqb andb] in Ut; rewrite Z.eqb_refl in Ut; lia.
  - exfalso. specialize (Uy 1%Z). destruct f1; cbn in Uy; lia.
  - exfalso. specialize (Ut x2). destruct (call_action c1), f2; cbn [app uses table_eqb andb] in Ut; rewrite Z.eqb_refl in Ut; destruct (own_turn_call c1); cbn [table_eqb andb] in Ut; lia.
  - destruct L1 as [Lw1 Lc1]. destruct L2 as [Lw2 Lc2]. destruct (call_tok w1 c1 Lw1 Lc1) as (i1 & I1 & _). destruct (call_tok w2 c2 Lw2 Lc2) as (i2 & I2 & _). rewrite I1, I2 in *.
    assert (Eo : own_turn_call c1 = own_turn_call c2 /\ i1 = i2).
    { destruct (own_turn_call c1) eqn:O1, (own_turn_call c2) eqn:O2.
      - specialize (Ud i1). cbn [app uses table_eqb andb] in Ud. rewrite Z.eqb_refl in Ud. destruct (Z.eqb_spec i1 i2); [auto|lia].
      - exfalso. specialize (Ud i1). cbn [app uses table_eqb andb] in Ud. rewrite Z.eqb_refl in Ud. lia.
      - exfalso. specialize (Uq i1). cbn [app uses table_eqb andb] in Uq. rewrite Z.eqb_refl in Uq. lia.
      - specialize (Uq i1). cbn [app uses table_eqb andb] in Uq. rewrite Z.eqb_refl in Uq. destruct (Z.eqb_spec i1 i2); [auto|lia]. }
    destruct Eo as [Eo <-]. split; [|split; [exact Eo|reflexivity]]. apply PL; [exact Lw1|exact Lw2|].
    intros d Hd. specialize (S zero d ltac:(lia)). rewrite Eo in S. rewrite !row_sum_app, !row_sum_cons in S. cbn [row_of fst snd] in S. lra.
  - exfalso. specialize (Uy 1%Z). destruct (call_action c1); cbn [app uses table_eqb andb] in Uy; destruct (own_turn_call c1); cbn in Uy; lia.
  - exfalso. specialize (Uy 1%Z). destruct (call_action c1); cbn [app uses table_eqb andb] in Uy; destruct (own_turn_call c1); cbn in Uy; lia.
  - exfalso. specialize (Ut x2). destruct f2; cbn [app uses table_eqb andb] in Ut; rewrite Z.eqb_refl in Ut; lia.
  - exfalso. specialize (Uy 2%Z). destruct (call_action c2); cbn [app uses table_eqb andb] in Uy; destruct (own_turn_call c2); cbn in Uy; lia.
  - apply PL; [exact L1|exact L2|]. intros d Hd. specialize (S zero d ltac:(lia)). rewrite !row_sum_cons in S. cbn [row_of fst snd] in S. lra.
  - exfalso. specialize (Uy 2%Z). cbn in Uy. lia.
  - exfalso. specialize (Uy 1%Z). destruct f2; cbn in Uy; lia.
  - exfalso. specialize (Uy 3%Z). destruct (call_action c2); cbn [app uses table_eqb andb] in Uy; destruct (own_turn_call c2); cbn in Uy; lia.
  - exfalso. specialize (Uy 2%Z). cbn in Uy. lia.
  - specialize (Ut x1). cbn [app uses table_eqb andb] in Ut. rewrite Z.eqb_refl in Ut. destruct (Z.eqb_spec x1 x2); [assumption|lia].
Qed.
