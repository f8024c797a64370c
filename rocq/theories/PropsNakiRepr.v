(** C125: the printed form of a call.  Model in NakiRepr.v; [spec_kind], [in_range]:
    SpecMeld.v. *)
From Coq Require Import ZArith List Bool String Lia.
From Verif Require Import Base Naki Train SpecMeld SpecTrain TrainLemmas NakiLemmas NakiRepr PropsNaki.
Open Scope Z_scope.

(** The name of a kind, and the action a call stands for in its head. *)
Definition kind_name (k : kind) : string := match k with Chi => "Chi" | Pon => "Pon" | Kakan => "Kakan" | Minkan => "Minkan" | Ankan => "Ankan" end.
Definition action (k : kind) (c : Z) : res Z :=
  match k with Ankan | Kakan => get_during_turn_filter_idx c | Chi | Pon | Minkan => get_post_turn_filter_idx c end.

(** Printing never fails, whatever the code. *)
Theorem C125_total : forall c, exists s, naki_repr c = Ok s.
Proof.
  intros c. unfold naki_repr, get_post_turn_filter_idx, get_during_turn_filter_idx.
  destruct (is_chi c); [destruct (p_red _ && _); eexists; reflexivity|]. destruct (is_pon c).
  { destruct (p_color _ =? 3); [eexists; reflexivity|]. destruct (p_red _ && _); eexists; reflexivity. }
  destruct (is_kakan c); [destruct (is_ankan c); eexists; reflexivity|]. destruct (is_minkan c); [eexists; reflexivity|].
  destruct (is_ankan c); eexists; reflexivity.
Qed.
Print Assumptions C125_total.

(** For the codes of real calls the text is the kind and the number of the action. *)
Theorem C125_text : forall c k, in_range c -> spec_kind c = Some k ->
  exists i, action k c = Ok i /\ 2 <= i <= 153 /\ naki_repr c = Ok (kind_name k ++ ": " ++ dec (Z.to_nat i))%string.
Proof.
  intros c k R K. pose proof (C07_action_index_range c k R K) as A. destruct (C03_kind_predicates c) as (P1 & P2 & P3 & P4 & P5).
  assert (Z1 : forall i, 2 <= i -> zdec i = dec (Z.to_nat i)) by (intros i Hi; unfold zdec; destruct (Z.ltb_spec i 0); [lia|reflexivity]).
  assert (F : forall (b : bool) x, (b = true <-> Some k = Some x) -> k <> x -> b = false)
    by (intros [] x H N; [destruct N; pose proof (proj1 H eq_refl) as H'; congruence|reflexivity]).
  rewrite K in P1, P2, P3, P4, P5. unfold naki_repr.
  assert (G : k <> Pon -> k <> Kakan -> is_kakan c = false).
  { intros N1 N2. pose proof (F _ _ P2 N1) as E1. pose proof (F _ _ P3 N2) as E2. rewrite E1 in E2. destruct (is_kakan c); [discriminate E2|reflexivity]. }
  destruct k; destruct A as [(i & A1 & A2) _]; exists i; cbn [action]; (split; [exact A1|]); (split; [lia|]).
  - rewrite (proj2 P1 eq_refl), A1. cbn [bind]. rewrite Z1 by lia. reflexivity.
  - rewrite (F _ _ P1) by discriminate. rewrite (proj2 P2 eq_refl), A1. cbn [bind]. rewrite Z1 by lia. reflexivity.
  - rewrite (F _ _ P1) by discriminate. rewrite (F _ _ P2) by discriminate.
    pose proof (proj2 P3 eq_refl) as E. apply andb_true_iff in E. rewrite (proj1 E), A1. cbn [bind]. rewrite Z1 by lia. reflexivity.
  - rewrite (F _ _ P1) by discriminate. rewrite (F _ _ P2) by discriminate. rewrite G by discriminate.
    rewrite (proj2 P4 eq_refl), A1. cbn [bind]. rewrite Z1 by lia. reflexivity.
  - rewrite (F _ _ P1) by discriminate. rewrite (F _ _ P2) by discriminate. rewrite G by discriminate. rewrite (F _ _ P4) by discriminate.
    rewrite (proj2 P5 eq_refl), A1. cbn [bind]. rewrite Z1 by lia. reflexivity.
Qed.
Print Assumptions C125_text.

(** Two calls print the same exactly when they are of one kind and one action. *)
Theorem C125_same : forall c1 c2 k1 k2, in_range c1 -> in_range c2 -> spec_kind c1 = Some k1 -> spec_kind c2 = Some k2 ->
  (naki_repr c1 = naki_repr c2 <-> k1 = k2 /\ action k1 c1 = action k2 c2).
Proof.
  intros c1 c2 k1 k2 R1 R2 K1 K2. destruct (C125_text c1 k1 R1 K1) as (i1 & A1 & B1 & T1). destruct (C125_text c2 k2 R2 K2) as (i2 & A2 & B2 & T2).
  rewrite T1, T2. split.
  - intros E. assert (k1 = k2 /\ dec (Z.to_nat i1) = dec (Z.to_nat i2)) as [Ek Ei].
    { destruct k1, k2; cbn [kind_name append] in E; injection E as E; first [discriminate E | split; [reflexivity|exact E]]. }
    split; [exact Ek|]. rewrite A1, A2. f_equal. pose proof (dec_numeral (Z.to_nat i1)) as [_ D1]. pose proof (dec_numeral (Z.to_nat i2)) as [_ D2].
    rewrite Ei, D2 in D1. injection D1 as D1. lia.
  - intros [Ek Ei]. rewrite A1, A2 in Ei. injection Ei as ->. rewrite Ek. reflexivity.
Qed.
Print Assumptions C125_same.

(** A code that is no call prints as such, and only such a code does. *)
Theorem C125_invalid : forall c, naki_repr c = Ok "Invalid naki code"%string <-> spec_kind c = None.
Proof.
  intros c. destruct (C03_kind_predicates c) as (P1 & P2 & P3 & P4 & P5).
  split.
  - intros E. destruct (spec_kind c) as [k|] eqn:K; [exfalso|reflexivity].
    unfold naki_repr in E.
    destruct (is_chi c). { destruct (get_post_turn_filter_idx c); discriminate E. }
    destruct (is_pon c). { destruct (get_post_turn_filter_idx c); discriminate E. }
    destruct (is_kakan c). { destruct (get_during_turn_filter_idx c); discriminate E. }
    destruct (is_minkan c). { destruct (get_post_turn_filter_idx c); discriminate E. }
    destruct (is_ankan c). { destruct (get_during_turn_filter_idx c); discriminate E. }
    destruct k; [discriminate (proj2 P1 eq_refl)|discriminate (proj2 P2 eq_refl)|discriminate (proj2 P3 eq_refl)|discriminate (proj2 P4 eq_refl)|discriminate (proj2 P5 eq_refl)].
  - intros K. rewrite K in P1, P2, P3, P4, P5. unfold naki_repr.
    destruct (is_chi c); [discriminate (proj1 P1 eq_refl)|]. destruct (is_pon c); [discriminate (proj1 P2 eq_refl)|].
    destruct (is_kakan c); [discriminate (proj1 P3 eq_refl)|]. destruct (is_minkan c); [discriminate (proj1 P4 eq_refl)|].
    destruct (is_ankan c); [discriminate (proj1 P5 eq_refl)|]. reflexivity.
Qed.
Print Assumptions C125_invalid.

(** Non-vacuity: a closed kan, an open kan, a pon from a log; a code of no call. *)
Example C125_example :
  in_range (33 * 4 * 256) /\ spec_kind (33 * 4 * 256) = Some Ankan /\ naki_repr (33 * 4 * 256) = Ok "Ankan: 36"%string /\
  naki_repr (33 * 4 * 256 + 1) = Ok "Minkan: 153"%string /\ naki_repr 51306 = Ok "Pon: 119"%string /\ naki_repr 32 = Ok "Invalid naki code"%string.
Proof.
  split; [vm_compute; auto|]. repeat split; vm_compute; reflexivity.
Qed.
