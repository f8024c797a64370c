(** How many tokens a round can have. *)
From Coq Require Import ZArith List Bool String Ascii Lia PeanoNat Permutation.
From Verif Require Import Base Constants Naki Decision Tokens GameInfo Agari Process VecLemmas
  SpecMeld SpecTokens SpecRound SpecTurn NakiProofs NakiLemmas RoundLemmas RoundInv RoundTiles RoundInit RoundBook RoundFlags RoundSplit RoundHalf RoundFacts RoundQuery.
Import ListNotations.
Open Scope Z_scope.

(** ** Sizes *)
Lemma pop_len {A} (l : list A) i a r : pop l i = Some (a, r) -> List.length l = S (List.length r).
Proof.
  revert i r. induction l as [|x l IH]; intros [|i] r; cbn; intros H; try discriminate; [now injection H as _ <-|].
  destruct (pop l i) as [[y t]|] eqn:E; [|discriminate]. injection H as <- <-. apply IH in E. cbn. lia.
Qed.
Lemma popz_len l w a r : popz l w = (a, r) -> (List.length l <= S (List.length r))%nat.
Proof.
  unfold popz. destruct (pop l (Z.to_nat w)) as [[y t]|] eqn:E; intros H; injection H as _ <-; [apply pop_len in E; lia|lia].
Qed.
Lemma filter3 z : (3 <= List.length (filter (fun k => negb (k =? z)%Z) [0; 1; 2; 3]%Z))%nat.
Proof.
  cbn [filter]. destruct (Z.eqb_spec 0 z), (Z.eqb_spec 1 z), (Z.eqb_spec 2 z), (Z.eqb_spec 3 z); cbn [List.length negb]; lia.
Qed.

Lemma shown_size c : (exists e, get_exposed c = Ok e) ->
  (1 <= List.length (shown_by c))%nat /\ (is_ankan c || is_kakan c = false -> (2 <= List.length (shown_by c))%nat).
Proof.
  intros ([ex a] & E). unfold shown_by. rewrite E. revert E. unfold get_exposed.
  destruct (is_chi c).
  { unfold pattern_chi. destruct (popz _ _) as [a0 r] eqn:P. intros E. injection E as <- <-. apply popz_len in P. cbn in P. cbn. lia. }
  destruct (is_pon c).
  { unfold pattern_pon. destruct (popz _ _) as [a0 r] eqn:P. intros E. injection E as <- <-. apply popz_len in P. cbn [p_exposed] in *.
    rewrite map_length in P. pose proof (filter3 (Z.shiftr (Z.land c 96) 5)). cbn [p_exposed]. lia. }
  destruct (is_kakan c).
  { intros E. injection E as <- <-. cbn. split; [lia|]. rewrite orb_true_r. discriminate. }
  destruct (is_minkan c).
  { unfold pattern_minkan. destruct (popz _ _) as [a0 r] eqn:P. intros E. injection E as <- <-. apply popz_len in P. cbn in P. cbn. lia. }
  destruct (is_ankan c); [|discriminate]. intros E. injection E as <- <-. cbn. lia.
Qed.

(** Counting tiles by type *)
Definition sum34 (f : nat -> Z) : Z := vsum (map f (seq 0 34)).
Lemma sum34_sub f g h : (forall k, (k < 34)%nat -> f k = g k - h k) -> sum34 f = sum34 g - sum34 h.
Proof.
  intros H. unfold sum34. assert (Q : forall l, Forall (fun k => k < 34)%nat l -> vsum (map f l) = vsum (map g l) - vsum (map h l)).
  { induction l as [|k l IH]; intros F; [reflexivity|]. inversion F; subst. cbn [map]. unfold vsum in *. cbn [fold_right]. rewrite IH, H by assumption. lia. }
  apply Q. apply Forall_forall. intros k Hk. apply in_seq in Hk. lia.
Qed.
Lemma sum34_nonneg f : (forall k, (k < 34)%nat -> 0 <= f k) -> 0 <= sum34 f.
Proof.
  intros H. unfold sum34. assert (Q : forall l, Forall (fun k => k < 34)%nat l -> 0 <= vsum (map f l)).
  { induction l as [|k l IH]; intros F; [reflexivity|]. inversion F; subst. cbn [map]. unfold vsum in *. cbn [fold_right]. specialize (IH H3). specialize (H k H2). lia. }
  apply Q. apply Forall_forall. intros k Hk. apply in_seq in Hk. lia.
Qed.
Lemma sum34_add f g : sum34 (fun k => f k + g k) = sum34 f + sum34 g.
Proof. unfold sum34. induction (seq 0 34) as [|k l IH]; [reflexivity|]. cbn [map]. unfold vsum in *. cbn [fold_right]. lia. Qed.
Lemma one_type : forallb (fun x => sum34 (fun k => num k [x]) =? 1) (map Z.of_nat (seq 0 136)) = true.
Proof. vm_cast_no_check (eq_refl true). Qed.
Lemma sum_num l : Forall (fun x => 0 <= x < 136) l -> sum34 (fun k => num k l) = Z.of_nat (List.length l).
Proof.
  induction l as [|x l IH]; intros F; [reflexivity|]. inversion F; subst.
  assert (E : sum34 (fun k => num k (x :: l)) = sum34 (fun k => num k [x] + num k l)).
  { unfold sum34. f_equal. apply map_ext. intros k. exact (num_cons k x l). }
  rewrite E, sum34_add, IH by assumption.
  pose proof one_type as O. rewrite forallb_forall in O. specialize (O x). rewrite Z.eqb_eq in O. rewrite O; [cbn [List.length]; lia|].
  apply in_map_iff. exists (Z.to_nat x). split; [lia|]. apply in_seq. lia.
Qed.

Lemma tid_all l : Forall (fun x => 0 <= x < 136) (map tid l).
Proof. apply Forall_map, Forall_forall. intros x _. apply tid_range. Qed.

(** ** The potential *)
Definition discards (pls : list play) : Z :=
  Z.of_nat (List.length (filter (fun e => match e with PlDiscard _ _ => true | _ => false end) pls)).
Definition all_shown (pls : list play) : list Z :=
  flat_map (fun e => match e with PlCall _ c => map tid (shown_by c) | _ => [] end) pls.
Definition nshown (pls : list play) : Z := Z.of_nat (List.length (all_shown pls)).
Lemma discards_app a b : discards (a ++ b) = discards a + discards b.
Proof. apply filter_len_app. Qed.
Lemma nshown_app a b : nshown (a ++ b) = nshown a + nshown b.
Proof. unfold nshown, all_shown. rewrite flat_map_app, app_length. lia. Qed.
Definition has (o : option Z) : Z := match o with Some _ => 1 | None => 0 end.

Definition top_during (s : rstate) : bool := match map shape_of (s_half s) with HDuring _ _ :: _ => true | _ => false end.
Definition top_post (s : rstate) : bool := match map shape_of (s_half s) with HPost _ _ :: _ => true | _ => false end.
Lemma cur_during_top s : cur_during s = s_cur s && top_during s.
Proof. unfold cur_during, top_during. now destruct (s_half s) as [|[]]. Qed.
Lemma cur_post_top s : cur_post s = s_cur s && top_post s.
Proof. unfold cur_post, top_post. now destruct (s_half s) as [|[]]. Qed.

Definition pot_inv (h : list play) (s : rstate) : Prop :=
  (cur_during s = true -> has (s_acquired s) = 1) /\ (cur_post s = true -> has (s_acquired s) = 0) /\
  discards h + 3 * calls h - 2 * nshown h + has (s_acquired s) <= draws h.

Lemma pot_inv_holds L go e0 evs n s pls : runs L go e0 evs n s pls -> pot_inv pls s.
Proof.
  intros R. eapply (runs_inv_full _ _ _ _ _ _ _ pot_inv) in R; [exact (proj1 R)| |]; clear.
  - intros s0 In0 _. destruct (in_rest _ _ In0) as (_ & _ & _ & _ & _ & _ & H1 & H2 & H3 & _). unfold pot_inv. rewrite cur_during_top, cur_post_top, H1, H3.
    cbn [andb has]. repeat split; try discriminate.
  - intros h a s s' W S (I1 & I2 & I3) G E Es. unfold pot_inv. rewrite discards_app, calls_app, nshown_app, draws_app.
    rewrite cur_during_top, cur_post_top in *. unfold top_during, top_post in *.
    apply strip_fields in Es as (_ & _ & _ & _ & _ & _ & _ & _ & _ & _ & _ & _ & _ & _ & _ & _ & Ea). rewrite Ea, ap_acquired.
    pose proof (astep_cur _ _ _ _ _ W S E) as Cu. apply astep_half in E; [|exact W|exact S].
    destruct a as [w t|w t|w c|w|w|t].
    + destruct E as (so & ds & _ & -> & _). rewrite Cu. change (discards [PlDraw w t]) with 0. change (calls [PlDraw w t]) with 0.
      change (nshown [PlDraw w t]) with 0. change (draws [PlDraw w t]) with 1. cbn [map shape_of andb has]. destruct G as (Ga & _). rewrite Ga in I3. cbn [has] in I3.
      repeat split; [discriminate|lia].
    + destruct E as (so & ds & tok & _ & -> & _). rewrite Cu. change (discards [PlDiscard w t]) with 1. change (calls [PlDiscard w t]) with 0.
      change (nshown [PlDiscard w t]) with 0. change (draws [PlDiscard w t]) with 0. cbn [map shape_of andb has]. destruct G as (Ga & _). destruct (s_acquired s); [|congruence]. cbn [has] in I3.
      repeat split; [discriminate|lia].
    + destruct Cu as [Cu Cu']. rewrite Cu'. cbn [andb]. split; [discriminate|]. split; [discriminate|].
      change (discards [PlCall w c]) with 0. change (calls [PlCall w c]) with 1. change (draws [PlCall w c]) with 0.
      destruct G as (_ & _ & Ge & Gc & _). rewrite cur_during_top, cur_post_top in Gc. unfold top_during, top_post in Gc.
      destruct (shown_size c Ge) as [S1 S2].
      assert (NS : nshown [PlCall w c] = Z.of_nat (List.length (shown_by c))) by (unfold nshown, all_shown; cbn [flat_map]; now rewrite app_nil_r, map_length). rewrite NS.
      destruct (is_ankan c || is_kakan c) eqn:Ek.
      * rewrite <- orb_assoc, Ek, orb_true_r. cbn [has]. specialize (I1 Gc). lia.
      * rewrite <- orb_assoc, Ek, orb_false_r. specialize (I2 Gc). specialize (S2 eq_refl).
        destruct (if is_minkan c then None else hd_error (claimed_by c)); cbn [has]; lia.
    + destruct E as ([M _] & _). destruct Cu as [Cu Cu']. rewrite M, Cu', <- Cu. change (discards [PlReach1 w]) with 0. change (calls [PlReach1 w]) with 0.
      change (nshown [PlReach1 w]) with 0. change (draws [PlReach1 w]) with 0. repeat split; auto; lia.
    + destruct E as ([M _] & _). destruct Cu as [Cu Cu']. rewrite M, Cu', <- Cu. change (discards [PlReach2 w]) with 0. change (calls [PlReach2 w]) with 0.
      change (nshown [PlReach2 w]) with 0. change (draws [PlReach2 w]) with 0. repeat split; auto; lia.
    + destruct E as ([M _] & _). rewrite M, Cu. change (discards [PlDora t]) with 0. change (calls [PlDora t]) with 0.
      change (nshown [PlDora t]) with 0. change (draws [PlDora t]) with 0. repeat split; auto; lia.
Qed.

(** Sums over the four players. *)
Lemma seat_split (w : Z) : 0 <= w < 4 -> (if w =? 0 then 1 else 0) + (if w =? 1 then 1 else 0) + (if w =? 2 then 1 else 0) + (if w =? 3 then 1 else 0) = 1.
Proof. intros H. assert (Q : w = 0 \/ w = 1 \/ w = 2 \/ w = 3) by lia. now destruct Q as [->|[->|[->| ->]]]. Qed.
Definition zlen {A} (l : list A) : Z := Z.of_nat (List.length l).
Lemma zlen_app {A} (a b : list A) : zlen (a ++ b) = zlen a + zlen b.
Proof. unfold zlen. rewrite app_length. lia. Qed.
Definition over4 (f : Z -> Z) : Z := f 0 + f 1 + f 2 + f 3.

(** All players of draws, discards, calls and paid sticks are seats. *)
Definition seats_ok (pls : list play) : Prop :=
  Forall (fun a => match a with PlDraw w _ | PlDiscard w _ | PlCall w _ | PlReach2 w => 0 <= w < 4 | _ => True end) pls.
Lemma seats_ok_holds L go e0 evs n s pls : runs L go e0 evs n s pls -> seats_ok pls.
Proof.
  intros R. eapply (runs_inv _ _ _ _ _ _ _ (fun h _ => seats_ok h)) in R; [exact (proj1 R)| | |]; clear.
  - intros. constructor.
  - intros h a s W S I G. apply Forall_app. split; [exact I|]. constructor; [|constructor]. exact (guard_seat a s S G).
  - auto.
Qed.

Lemma totals pls : seats_ok pls ->
  over4 (fun p => zlen (drawn p pls)) = draws pls /\ over4 (fun p => zlen (discarded p pls)) = discards pls /\
  over4 (fun p => zlen (shown p pls)) = nshown pls /\ over4 (fun p => sticks p pls) = all_sticks pls.
Proof.
  induction 1 as [|a l Ha _ (I1 & I2 & I3 & I4)]; [repeat split|].
  change (a :: l) with ([a] ++ l). rewrite draws_app, discards_app, nshown_app. unfold all_sticks. rewrite filter_len_app. fold (all_sticks l).
  assert (Q1 : over4 (fun p => zlen (drawn p ([a] ++ l))) = over4 (fun p => zlen (drawn p [a])) + draws l).
  { unfold over4 in *. rewrite !drawn_app, !zlen_app. lia. }
  assert (Q2 : over4 (fun p => zlen (discarded p ([a] ++ l))) = over4 (fun p => zlen (discarded p [a])) + discards l).
  { unfold over4 in *. rewrite !discarded_app, !zlen_app. lia. }
  assert (Q3 : over4 (fun p => zlen (shown p ([a] ++ l))) = over4 (fun p => zlen (shown p [a])) + nshown l).
  { unfold over4 in *. rewrite !shown_app, !zlen_app. lia. }
  assert (Q4 : over4 (fun p => sticks p ([a] ++ l)) = over4 (fun p => sticks p [a]) + all_sticks l).
  { unfold over4 in *. rewrite !sticks_app. lia. }
  rewrite Q1, Q2, Q3, Q4. clear Q1 Q2 Q3 Q4 I1 I2 I3 I4.
  assert (W : forall w, 0 <= w < 4 -> w = 0 \/ w = 1 \/ w = 2 \/ w = 3) by (intros; lia).
  destruct a as [w t|w t|w c|w|w|t]; try (repeat split; reflexivity);
   (apply W in Ha; destruct Ha as [->|[->|[->| ->]]]; repeat split; try reflexivity);
   unfold over4, shown, nshown, all_shown, zlen; cbn [flat_map Z.eqb Pos.eqb]; rewrite ?app_nil_r; cbn [List.length]; lia.
Qed.

Lemma round_totals L go e0 evs n s pls : runs L go e0 evs n s pls ->
  0 <= 52 + draws pls - discards pls - nshown pls /\ zlen (all_dealt e0) = 52.
Proof.
  intros R. pose proof (seats_ok_holds _ _ _ _ _ _ _ R) as SO. destruct (totals pls SO) as (T1 & T2 & T3 & _).
  destruct (runs_plays _ _ _ _ _ _ _ R) as (s0 & In0 & _).
  assert (LD : forall p, (p < 4)%nat -> List.length (dealt e0 p) = 13%nat) by (intros p Hp; apply (in_deal _ _ In0 p Hp)).
  assert (H : forall p, 0 <= p < 4 -> zlen (discarded p pls) + zlen (shown p pls) <= 13 + zlen (drawn p pls)).
  { intros p Hp. destruct (hands_exact _ _ _ _ _ _ _ p R Hp) as (hl & _ & _ & P & _). apply Permutation_length in P.
    rewrite !app_length, LD in P by lia. unfold zlen. lia. }
  pose proof (H 0 ltac:(lia)). pose proof (H 1 ltac:(lia)). pose proof (H 2 ltac:(lia)). pose proof (H 3 ltac:(lia)).
  unfold over4 in *. split; [lia|]. unfold all_dealt, zlen. cbn [seq flat_map]. rewrite !app_length, !LD by lia. reflexivity.
Qed.

Lemma wall_total L go e0 evs n s pls : runs L go e0 evs n s pls -> (forall k, (k < 34)%nat -> 0 <= vget (s_rem s) k) ->
  draws pls + new_doras pls <= 83.
Proof.
  intros R Hn. pose proof (seen_inv_holds _ _ _ _ _ _ _ R) as Sn. destruct (round_totals _ _ _ _ _ _ _ R) as [_ A52].
  set (all := all_dealt e0 ++ [first_indicator e0] ++ all_drawn pls ++ indicators pls).
  assert (Fa : Forall (fun x => 0 <= x < 136) all).
  { assert (FM : forall A (f : A -> list Z) l, (forall a, Forall (fun x => 0 <= x < 136) (f a)) -> Forall (fun x => 0 <= x < 136) (flat_map f l)).
    { intros A f l Hf. apply Forall_forall. intros x Hx. apply in_flat_map in Hx as (y & _ & Hx). specialize (Hf y). rewrite Forall_forall in Hf. auto. }
    unfold all. apply Forall_app. split; [|apply Forall_app; split; [|apply Forall_app; split]].
    - apply FM. intros p. unfold dealt. destruct (dict_get _ _); [|constructor]. destruct (ints _); [|constructor]. apply tid_all.
    - constructor; [apply tid_range|constructor].
    - apply FM. intros []; try constructor; [apply tid_range|constructor].
    - apply FM. intros []; try constructor; [apply tid_range|constructor]. }
  pose proof (sum34_nonneg _ Hn) as P.
  rewrite (sum34_sub _ (fun _ => 4) (fun k => num k all)) in P.
  2:{ intros k Hk. destruct (Sn k ltac:(lia)) as [-> _]. unfold class_size. destruct (Nat.ltb_spec k 34); [|lia]. unfold all. rewrite !num_app. lia. }
  rewrite (sum_num _ Fa) in P. change (sum34 (fun _ => 4)) with 136 in P. unfold all in P. rewrite !app_length in P.
  assert (D : Z.of_nat (List.length (all_drawn pls)) = draws pls).
  { unfold all_drawn, draws. clear. induction pls as [|[] pls IH]; cbn [flat_map filter List.length app]; lia. }
  assert (X : Z.of_nat (List.length (indicators pls)) = new_doras pls).
  { unfold indicators, new_doras. clear. induction pls as [|[] pls IH]; cbn [flat_map filter List.length app]; lia. }
  unfold zlen in A52. cbn [List.length] in P. lia.
Qed.

Lemma npub_split pls : npub pls = discards pls + calls pls + all_sticks pls + new_doras pls.
Proof.
  unfold npub, discards, calls, all_sticks, new_doras. generalize (@None Z). induction pls as [|a pls IH]; intros o; [reflexivity|].
  destruct a; cbn [public filter List.length]; rewrite ?Nat2Z.inj_succ, ?IH; try lia;
   match goal with |- context[public ?x pls] => rewrite (IH x) end; lia.
Qed.

Lemma token_bound L go e0 evs n s pls : runs L go e0 evs n s pls -> (forall k, (k < 34)%nat -> 0 <= vget (s_rem s) k) ->
  Z.of_nat (List.length (s_tokens s)) <= 117 + all_sticks pls.
Proof.
  intros R Hn. destruct (half_inv_holds _ _ _ _ _ _ _ R) as [T _]. fold (ntokens s). rewrite (token_len _ _ T), npub_split.
  destruct (round_totals _ _ _ _ _ _ _ R) as [H1 _]. pose proof (wall_total _ _ _ _ _ _ _ R Hn) as H2.
  destruct (pot_inv_holds _ _ _ _ _ _ _ R) as (_ & _ & H3). assert (0 <= has (s_acquired s)) by (destruct (s_acquired s); cbn; lia). lia.
Qed.

Lemma sticks_total L go e0 evs n s pls : runs L go e0 evs n s pls -> (forall p, 0 <= p < 4 -> sticks p pls <= 1) -> all_sticks pls <= 4.
Proof.
  intros R H. destruct (totals pls (seats_ok_holds _ _ _ _ _ _ _ R)) as (_ & _ & _ & T). unfold over4 in T.
  pose proof (H 0 ltac:(lia)). pose proof (H 1 ltac:(lia)). pose proof (H 2 ltac:(lia)). pose proof (H 3 ltac:(lia)). lia.
Qed.
