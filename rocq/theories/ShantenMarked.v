(** Hands with red markers on a multiple of three plus two tiles: the search counts one set
    less than there is. *)
From Coq Require Import ZArith List Bool Lia Arith Permutation.
From Verif Require Import Base Constants VecLemmas Shanten SpecShanten ShantenSearch ShantenLemmas ShantenWins ShantenReds.
Import ListNotations.
Open Scope Z_scope.

Section Marked.
  Context (l : list Z) (x y z : Z) (m : nat).
  Notation h := (l ++ [x; y; z]).
  Notation u := (l ++ [0; 0; 0]).
  Context (Ll : length l = 34%nat) (P : plain_hand u) (T : total u = 14 - 3 * Z.of_nat m).
  Context (X : 0 <= x <= 1) (Y : 0 <= y <= 1) (Z0 : 0 <= z <= 1) (R : 1 <= x + y + z).

  Lemma h_len : length h = 37%nat. Proof. rewrite app_length, Ll. reflexivity. Qed.
  Lemma u_len : length u = 37%nat. Proof. rewrite app_length, Ll. reflexivity. Qed.
  Lemma h_at t : (t < 34)%nat -> vget h t = vget u t.
  Proof. intros I. unfold vget. rewrite !app_nth1 by lia. reflexivity. Qed.
  Lemma sums : vsum h = vsum u + (x + y + z).
  Proof. rewrite !vsum_app. cbn [vsum fold_right]. lia. Qed.
  Lemma skip_h : skipn 27 h = skipn 27 l ++ [x; y; z]. Proof. rewrite skipn_app, Ll. reflexivity. Qed.
  Lemma skip_u : skipn 27 u = skipn 27 l ++ [0; 0; 0]. Proof. rewrite skipn_app, Ll. reflexivity. Qed.

  Lemma init_marked : sv_mentsu (sv_init h) = Z.of_nat m - 1 + Z.of_nat (length (honT u)) /\ sv_toitsu (sv_init h) = Z.of_nat (length (honP u)).
  Proof.
    pose proof (sum_ge_hon u P) as A. pose proof (sum_eq_hon u P) as B. rewrite skip_u in A, B. cbn [sv_init sv_mentsu sv_toitsu]. rewrite skip_h, sums.
    unfold sum_ge, sum_eq in *. rewrite !map_app, !vsum_app in *. cbn [map vsum fold_right] in *.
    rewrite (proj2 (Z.leb_gt 3 x)), (proj2 (Z.leb_gt 3 y)), (proj2 (Z.leb_gt 3 z)) by lia.
    rewrite (proj2 (Z.eqb_neq x 2)), (proj2 (Z.eqb_neq y 2)), (proj2 (Z.eqb_neq z 2)) by lia.
    change (vsum u) with (total u). rewrite T. cbn [b2z Z.leb Z.eqb Z.compare] in *. rewrite <- A, <- B. split; [|lia].
    replace ((14 - (14 - 3 * Z.of_nat m + (x + y + z))) / 3) with (Z.of_nat m - 1) by (apply (Z.div_unique _ 3 _ (3 - x - y - z)); lia). lia.
  Qed.

  Lemma leaf_marked s' : Reach 0 (sv_init h) s' -> 1 <= leaf_value s'.
  Proof.
    intros Rc. pose proof P as (L & B & Rd). destruct init_marked as [IM IP].
    assert (Nn : nonneg (sv_init h)) by (intros t I; cbn [sv_init sv_hand]; rewrite h_at by lia; exact (plain_nonneg u P t I)).
    destruct (reach_dec _ _ _ Rc h_len Nn) as (sets & pairs & rest & A1 & A2 & A3 & A4 & A5 & A6 & A7 & A8).
    rewrite IM in A5. rewrite IP in A6. change (sv_taatsu (sv_init h)) with 0 in A7, A8. change (sv_hand (sv_init h)) with h in A4.
    assert (HS : S27 (vget u) = 3 * Z.of_nat (length sets) + 2 * Z.of_nat (length pairs) + S27 rest).
    { rewrite (S27_ext (vget u) (fun t => uses_all sets t + two pairs t + rest t)) by (intros t I; rewrite <- h_at by lia; now apply A4).
      rewrite !S27_add, S27_uses_all, S27_two by assumption. reflexivity. }
    assert (N7 : forall t, In t (seq 27 7) -> 0 <= vget u t) by (intros t I; apply plain_ge; exact P).
    destruct (S7_ge (seq 27 7) (vget u) N7) as [G1 _]. fold (honT u) in G1. fold (honP u) in G1. fold (S7 (vget u)) in G1.
    pose proof (total_split u P) as TS. rewrite T, HS in TS.
    set (a := Z.of_nat (length sets)) in *. set (b := Z.of_nat (length pairs)) in *.
    set (c := Z.of_nat (length (honT u))) in *. set (d := Z.of_nat (length (honP u))) in *.
    assert (0 <= a /\ 0 <= b /\ 0 <= c /\ 0 <= d) as (Pa & Pb & Pc & Pd) by (unfold a, b, c, d; lia).
    unfold leaf_value. set (w := if truthy (sv_tune s') && negb (truthy (sv_toitsu s')) then 1 else 0).
    assert (Pw : 0 <= w) by (unfold w; destruct (truthy (sv_tune s') && negb (truthy (sv_toitsu s'))); lia).
    clearbody w. lia.
  Qed.

  Lemma normal_marked : 1 <= normal_value h.
  Proof.
    destruct (normal_ok h h_len) as [_ H]. destruct (Z.le_gt_cases 1 (normal_value h)) as [A|A]; [exact A|exfalso].
    assert (Q : normal_value h <= 0) by lia. apply H in Q as [Q|(s' & Rc & V)]; [lia|]. pose proof (leaf_marked s' Rc). lia.
  Qed.

  Lemma pairs_marked : sum_ge h 2 = sum_ge u 2.
  Proof.
    unfold sum_ge. rewrite !map_app, !vsum_app. cbn [map vsum fold_right].
    rewrite (proj2 (Z.leb_gt 2 x)), (proj2 (Z.leb_gt 2 y)), (proj2 (Z.leb_gt 2 z)) by lia. reflexivity.
  Qed.

  Lemma yaochu_marked : exists v, yaochu_arr h = v ++ [x; 0; 0] /\ yaochu_arr u = v ++ [0; 0; 0].
  Proof.
    clear P T. revert Ll. do 34 (destruct l as [|? l0]; [discriminate|]; clear l; rename l0 into l). clear. destruct l; [|discriminate]. intros _.
    unfold yaochu_arr. cbn [app combine map YAOCHU_TENSOR].
    match goal with |- exists v, ?r = _ /\ _ => exists (firstn 34 r) end.
    cbn. rewrite ?Z.mul_1_r, ?Z.mul_0_r. split; reflexivity.
  Qed.

  Lemma kokushi_marked : 13 - sum_ge (yaochu_arr h) 1 - (py_max (yaochu_arr h) - 1) <= 0 ->
    exists d, In d orphans /\ 14 <= Z.of_nat (length (present u)) + x + nth d u 0 /\ 1 <= nth d u 0.
  Proof.
    intros H. destruct yaochu_marked as (v & Eh & Eu).
    assert (K : sum_ge (yaochu_arr h) 1 = sum_ge (yaochu_arr u) 1 + x).
    { rewrite Eh, Eu. unfold sum_ge. rewrite !map_app, !vsum_app. cbn [map vsum fold_right Z.leb Z.compare b2z].
      destruct (Z.leb_spec 1 x); cbn [b2z]; lia. }
    assert (M : py_max (yaochu_arr h) <= Z.max (py_max (yaochu_arr u)) x).
    { assert (I : In (py_max (yaochu_arr h)) (v ++ [x; 0; 0])) by (rewrite <- Eh; apply py_max_in; rewrite Eh; destruct v; discriminate).
      apply in_app_or in I. assert (G : forall w, In w (v ++ [0; 0; 0]) -> w <= py_max (yaochu_arr u)) by (rewrite <- Eu; intros w W; now apply py_max_ge).
      destruct I as [I|[I|[I|[I|[]]]]]; [pose proof (G _ (in_or_app _ _ _ (or_introl I))); lia|lia|lia|lia]. }
    rewrite K, (kokushi_types u P) in H. destruct (kokushi_max u P) as [(d & D & E) G]. rewrite E in M, G.
    assert (B : 1 <= nth d u 0).
    { destruct (Z.le_gt_cases 1 (nth d u 0)) as [Q|Q]; [exact Q|exfalso].
      assert (F : present u = []).
      { unfold present. assert (A : forall t, In t orphans -> (1 <=? nth t u 0) = false) by (intros t I; apply Z.leb_gt; specialize (G t I); lia).
        revert A. generalize orphans. intros o. induction o as [|t o IH]; intros A; [reflexivity|]. cbn [filter].
        rewrite (A t (or_introl eq_refl)). apply IH. intros t' I. apply A. now right. }
      rewrite F in H. cbn [length] in H. change (Z.of_nat 0) with 0 in H. lia. }
    exists d. split; [exact D|]. split; [lia|exact B].
  Qed.

  Lemma marked_value : exists n s, shanten h = Some (n, s) /\
    (n <= 0 -> m = 0%nat /\
     (6 <= Z.of_nat (length (filter (fun t => 2 <=? nth t l 0) (seq 0 34))) \/
      exists d, In d orphans /\ 14 <= Z.of_nat (length (filter (fun t => 1 <=? nth t l 0) orphans)) + x + nth d l 0)).
  Proof.
    destruct (solve_ok h h_len) as (n & E & V). exists n, (set_best (sv_init h) n). split; [exact E|]. intros H.
    pose proof normal_marked as N. rewrite pairs_marked in V.
    assert (U : forall t, In t orphans -> nth t u 0 = nth t l 0) by (intros t I; apply app_nth1; rewrite Ll; cbn in I; lia).
    assert (PR : present u = filter (fun t => 1 <=? nth t l 0) orphans).
    { unfold present. apply filter_ext_in. intros t I. now rewrite U. }
    assert (C : sum_ge u 2 = Z.of_nat (length (filter (fun t => 2 <=? nth t l 0) (seq 0 34)))).
    { rewrite sum_ge_index, u_len, sum_b2z. change 37%nat with (34 + 3)%nat at 1. rewrite seq_app, filter_app, app_length.
      rewrite (filter_ext_in (fun t => 2 <=? vget u t) (fun t => 2 <=? nth t l 0) (seq 0 34)) by (intros t I; apply in_seq in I; unfold vget; rewrite app_nth1 by lia; reflexivity).
      assert (Q : filter (fun t => 2 <=? vget u t) (seq (0 + 34) 3) = []).
      { change (seq (0 + 34) 3) with [34; 35; 36]%nat. cbn [filter]. unfold vget. rewrite !app_nth2, Ll by lia. reflexivity. }
      rewrite Q. cbn [length]. now rewrite Nat.add_0_r. }
    assert (H' : 6 - sum_ge u 2 <= 0 \/ 13 - sum_ge (yaochu_arr h) 1 - (py_max (yaochu_arr h) - 1) <= 0) by lia.
    destruct H' as [H'|H'].
    - split; [|left; lia]. destruct (Z.eq_dec (Z.of_nat m) 0) as [Q|Q]; [lia|exfalso].
      pose proof (pairs_low (seq 0 37) (vget u) (fun t _ => plain_ge u t P)) as [G1 _].
      rewrite sum_ge_index, u_len, sum_b2z in H'.
      assert (TS : vsum (map (vget u) (seq 0 37)) = total u) by (unfold total; change (fold_right Z.add 0 u) with (vsum u); rewrite (vsum_index u), u_len; reflexivity).
      rewrite TS, T in G1. lia.
    - destruct (kokushi_marked H') as (d & D & K & B). split; [|right; exists d; split; [exact D|rewrite <- U, <- PR by exact D; exact K]].
      destruct (Z.eq_dec (Z.of_nat m) 0) as [Q|Q]; [lia|exfalso].
      pose proof (sum_types orphans (fun t => nth t u 0) d (fun t => plain_ge u t P) B D) as W. cbv beta in W. fold (present u) in W.
      pose proof (orphans_total u P). lia.
  Qed.
End Marked.
