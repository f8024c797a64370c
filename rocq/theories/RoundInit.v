(** What init_round establishes. *)
From Coq Require Import ZArith List Bool String Ascii Lia PeanoNat Permutation.
From Verif Require Import Base Constants Naki Decision Tokens GameInfo Agari Process VecLemmas
  SpecMeld SpecTokens SpecRound RoundLemmas RoundInv RoundTiles.
Import ListNotations.
Open Scope Z_scope.

Lemma one_class : forallb (fun i => vsum (map (fun k => num k [Z.of_nat i]) (seq 0 34)) =? 1) (seq 0 136) = true.
Proof. vm_cast_no_check (eq_refl true). Qed.
Lemma one_class_at x : 0 <= x < 136 -> vsum (map (fun k => num k [x]) (seq 0 34)) = 1.
Proof.
  intros R. pose proof one_class as S. rewrite forallb_forall in S. specialize (S (Z.to_nat x)). rewrite in_seq in S.
  specialize (S ltac:(lia)). apply Z.eqb_eq in S. rewrite Z2Nat.id in S by lia. exact S.
Qed.
Lemma sum_num l : Forall (fun x => 0 <= x < 136) l -> vsum (map (fun k => num k l) (seq 0 34)) = Z.of_nat (List.length l).
Proof.
  induction 1 as [|x l R _ IH]; [reflexivity|].
  rewrite (vsum_ext _ (fun k => num k [x] + num k l)) by (intros; apply num_cons).
  rewrite vsum_map_add, IH, one_class_at by assumption. cbn [List.length]. lia.
Qed.

(** hands[...] = 1.0 *)
Lemma vsum_repeat0 n : vsum (repeat 0 n) = 0.
Proof. unfold vsum. induction n; cbn; auto. Qed.
Lemma vsets_spec ks : forall v, List.length v = 136%nat -> Forall (fun k => (k < 136)%nat) ks ->
  (forall k, vget v k = 0 \/ vget v k = 1) ->
  vsum (vsets v ks 1) <= vsum v + Z.of_nat (List.length ks) /\
  (vsum (vsets v ks 1) = vsum v + Z.of_nat (List.length ks) -> NoDup ks /\ forall k, In k ks -> vget v k = 0).
Proof.
  unfold vsets. induction ks as [|k ks IH]; intros v L F B; cbn [fold_left List.length].
  - split; [lia|]. intros _. split; [constructor|]. intros ? [].
  - inversion F as [|? ? Hk F']; subst.
    destruct (IH (vset v k 1)) as [IH1 IH2]; [now rewrite length_vset|exact F'| |].
    { intros j. destruct (Nat.ltb_spec j 136).
      - rewrite vget_vset by lia. destruct (Nat.eqb k j); auto.
      - left. unfold vget. apply nth_overflow. rewrite length_vset. lia. }
    rewrite vsum_vset in * by lia. destruct (B k) as [E|E]; rewrite E in *.
    + split; [lia|]. intros H. destruct IH2 as [N I]; [lia|]. split.
      * constructor; [|exact N]. intros J. apply I in J. rewrite vget_vset, Nat.eqb_refl in J by lia. lia.
      * intros j [<-|J]; [exact E|]. pose proof J as J2. apply I in J. rewrite Forall_forall in F'. apply F' in J2.
        rewrite vget_vset in J by lia. destruct (Nat.eqb k j); [lia|exact J].
    + split; [lia|]. intros H. lia.
Qed.

Lemma map_tnat l : map tnat l = map Z.to_nat (map tid l).
Proof. rewrite map_map. reflexivity. Qed.

Lemma vsets_holds l : NoDup (map tid l) -> holds (vsets (repeat 0 136) (map tnat l) 1) (map tid l).
Proof.
  intros N. split; [now rewrite length_vsets|]. split; [exact N|]. split.
  - apply Forall_map, Forall_forall. intros; apply tid_range.
  - intros x R. rewrite vget_vsets by (rewrite repeat_length; lia).
    assert (Q : existsb (Nat.eqb (Z.to_nat x)) (map tnat l) = true <-> In x (map tid l)).
    { rewrite existsb_exists. split.
      - intros (k & I & E). apply Nat.eqb_eq in E. apply in_map_iff in I as (t & <- & I). apply in_map_iff. exists t.
        split; [|exact I]. unfold tnat in E. pose proof (tid_range t). lia.
      - intros I. apply in_map_iff in I as (t & E & I). exists (tnat t). split; [now apply in_map|].
        apply Nat.eqb_eq. unfold tnat. now rewrite E. }
    destruct (existsb _ _) eqn:E.
    + split; [reflexivity|]. intros J. exfalso. apply J. now apply Q.
    + split; [intros J; apply Q in J; discriminate|]. intros _. unfold vget. apply nth_repeat.
Qed.

(** The facts established by INIT. *)
Record inited (e0 : event) (s : rstate) : Prop := MkInited {
  in_wf : wf s;
  in_deal : forall p, (p < 4)%nat -> List.length (dealt e0 p) = 13%nat /\ NoDup (dealt e0 p) /\ holds (row (s_hands s) p) (dealt e0 p);
  in_vecs : forall p k, (p < 4)%nat -> (k < 37)%nat ->
    vget (row (s_ht s) p) k = num k (dealt e0 p) /\ vget (row (s_htf s) p) k = num k (dealt e0 p) /\
    vget (row (s_pov s) p) k = class_size k - num k (dealt e0 p) - num k [first_indicator e0];
  in_rem : forall k, (k < 37)%nat -> vget (s_rem s) k = class_size k - num k (all_dealt e0) - num k [first_indicator e0];
  in_sute : forall p k, vget (row (s_sute s) p) k = 0;
  in_scores : s_scores s = initial_scores e0;
  in_kyotaku : s_kyotaku s = initial_sticks e0;
  in_rest : s_rtsumo s = 70 /\ s_reaches s = repeat 0 4 /\ s_dreaches s = repeat 0 4 /\ s_ippatsu s = repeat 0 4 /\
    s_menzen s = repeat 1 4 /\ s_melds s = repeat [] 4 /\ s_cur s = false /\ s_cycles s = 0 /\ s_acquired s = None /\
    s_sobj s = None /\ s_half s = [] /\ s_tokens s = [];
  in_doras : map tid (s_doras s) = [first_indicator e0] }.

Lemma rem_size k : (k < 37)%nat -> vget REMAINING_TILES k = class_size k.
Proof. intros H. do 37 (destruct k as [|k]; [reflexivity|]). lia. Qed.

Lemma num_all_dealt4 k his : List.length his = 4%nat ->
  num k (List.concat (map (map tid) his)) =
  num k (map tid (nth 0 his [])) + num k (map tid (nth 1 his [])) + num k (map tid (nth 2 his [])) + num k (map tid (nth 3 his [])).
Proof.
  intros L. destruct his as [|a [|b [|c [|d [|]]]]]; try discriminate L. cbn [map List.concat nth].
  rewrite app_nil_r, !num_app. lia.
Qed.

Lemma mapM_nth {A B} (f : A -> res B) l r i da db : mapM f l = Ok r -> (i < List.length l)%nat -> f (nth i l da) = Ok (nth i r db).
Proof.
  intros H. apply mapM_ok in H. revert i. induction H as [|x y l r Hx _ IH]; cbn; intros i Hi; [lia|].
  destruct i; [exact Hx|]. apply IH. lia.
Qed.
Lemma mapM_length {A B} (f : A -> res B) l r : mapM f l = Ok r -> List.length r = List.length l.
Proof. intros H. apply mapM_ok in H. symmetry. eapply Forall2_len. exact H. Qed.

Lemma init_inited go e0 n s : init_round go e0 = Ok (n, s) -> inited e0 s.
Proof.
  unfold init_round. intros H.
  apply bind_ok in H as (u1 & _ & H). apply bind_ok in H as (ten & Eten & H). apply bind_ok in H as (scores & Esc & H).
  apply bind_ok in H as (oya & _ & H). apply bind_ok in H as (parent & _ & H). apply bind_ok in H as (pi & _ & H).
  apply bind_ok in H as (seed & Eseed & H). apply bind_ok in H as (sd & Esd & H).
  destruct sd as [|c0 [|honba [|kyo [|d1 [|d2 [|dora [|]]]]]]]; try discriminate H.
  apply bind_ok in H as (his & Ehis & H). apply bind_ok in H as ([[hts povs] rem] & Edeal & H).
  apply bind_ok in H as (di & Edi & H). apply bind_ok in H as (hands & Ehands & H).
  apply bind_ok in H as (u2 & A1 & H). apply bind_ok in H as (u3 & A2 & H). apply bind_ok in H as (u4 & A3 & H).
  apply passert_ok in A1, A3. apply Z.eqb_eq in A3. rewrite forallb_forall in A1.
  apply tile2idx_ok in Edi. subst di.
  assert (E0 : first_indicator e0 = tid dora).
  { unfold first_indicator, seed_of. rewrite Eseed, Esd. reflexivity. }
  assert (Ek : initial_sticks e0 = kyo).
  { unfold initial_sticks, seed_of. rewrite Eseed, Esd. reflexivity. }
  assert (Es : initial_scores e0 = scores).
  { unfold initial_scores. rewrite Eten, Esc. reflexivity. }
  pose proof (mapM_length _ _ _ Ehis) as Lhis. rewrite seq_length in Lhis.
  assert (Edl : forall p, (p < 4)%nat -> dealt e0 p = map tid (nth p his [])).
  { intros p Hp. pose proof (mapM_nth _ _ _ p 0%nat [] Ehis) as E. rewrite seq_length in E. specialize (E Hp).
    rewrite seq_nth in E by exact Hp. cbn [Nat.add] in E. apply bind_ok in E as (h & E1 & E2). unfold dealt. now rewrite E1, E2. }
  pose proof (deal_all_spec his REMAINING_TILES _ eq_refl Edeal) as (M1 & M2 & M3 & M4 & M5 & M6).
  rewrite Lhis in *.
  unfold fill_hands in Ehands. apply bind_ok in Ehands as (u5 & _ & Ehands).
  pose proof (mapM_length _ _ _ Ehands) as Lhands. rewrite Lhis in Lhands.
  assert (Eh : forall p, (p < 4)%nat -> row hands p = vsets (repeat 0 136) (map tnat (nth p his [])) 1).
  { intros p Hp. pose proof (mapM_nth _ _ _ p [] [] Ehands ltac:(lia)) as E. apply bind_ok in E as (ks & E1 & E2).
    injection E2 as E2. unfold row. rewrite <- E2. f_equal.
    clear - E1. apply mapM_ok in E1. induction E1 as [|x y l r Hx _ IH]; [reflexivity|]. cbn. f_equal; [|exact IH].
    symmetry. now apply py_index_tid in Hx. }
  assert (S13 : forall p, (p < 4)%nat -> vsum (row hands p) = 13).
  { intros p Hp. apply Z.eqb_eq. apply A1. unfold row. apply nth_In. lia. }
  assert (V : forall p, (p < 4)%nat -> vsum (row hands p) <= Z.of_nat (List.length (nth p his [])) /\
      (vsum (row hands p) = Z.of_nat (List.length (nth p his [])) -> NoDup (map tid (nth p his [])))).
  { intros p Hp. rewrite Eh by exact Hp.
    destruct (vsets_spec (map tnat (nth p his [])) (repeat 0 136)) as [V1 V2].
    - apply repeat_length.
    - apply Forall_map, Forall_forall. intros; apply tnat_lt.
    - intros k. left. unfold vget. apply nth_repeat.
    - rewrite vsum_repeat0, map_length in *. split; [lia|]. intros E. apply V2 in E as [E _].
      rewrite map_tnat in E. now apply NoDup_map_inv in E. }
  assert (T : Z.of_nat (List.length (nth 0 his [])) + Z.of_nat (List.length (nth 1 his [])) +
              Z.of_nat (List.length (nth 2 his [])) + Z.of_nat (List.length (nth 3 his [])) = 52).
  { rewrite (vsum_index (firstn 34 _)) in A3. rewrite firstn_length, length_vadds, M5 in A3. change (Nat.min 34 37) with 34%nat in A3.
    rewrite (vsum_ext _ (fun k => vget REMAINING_TILES k + (-1) * (num k (map tid (nth 0 his [])) + num k (map tid (nth 1 his [])) +
       num k (map tid (nth 2 his [])) + num k (map tid (nth 3 his [])) + num k [tid dora]))) in A3.
    2:{ intros k Hk. apply in_seq in Hk. rewrite vget_firstn by lia. rewrite vget_tix by (try exact M5; lia).
        destruct (M6 k ltac:(lia)) as [_ ->]. rewrite num_all_dealt4 by exact Lhis. lia. }
    rewrite vsum_map_add, vsum_map_scale, !vsum_map_add in A3.
    assert (TR : forall l, Forall (fun x => 0 <= x < 136) (map tid l)).
    { intros l. apply Forall_map, Forall_forall. intros; apply tid_range. }
    rewrite !sum_num in A3 by first [apply TR | apply (TR [dora])].
    rewrite !map_length in A3. cbn [List.length] in A3.
    replace (vsum (map (vget REMAINING_TILES) (seq 0 34))) with 136 in A3 by reflexivity. lia. }
  assert (L13 : forall p, (p < 4)%nat -> List.length (nth p his []) = 13%nat /\ NoDup (map tid (nth p his []))).
  { intros p Hp.
    pose proof (V 0%nat ltac:(lia)) as [V0 V0']. pose proof (V 1%nat ltac:(lia)) as [V1 V1'].
    pose proof (V 2%nat ltac:(lia)) as [V2 V2']. pose proof (V 3%nat ltac:(lia)) as [V3 V3'].
    rewrite S13 in V0, V0', V1, V1', V2, V2', V3, V3' by lia.
    do 4 (destruct p as [|p]; [split; [lia|]; first [apply V0'|apply V1'|apply V2'|apply V3']; lia|]). lia. }
  apply Ok_inj in H. injection H as _ <-.
  constructor.
  - unfold wf. ss.
    assert (Fh : Forall (fun r => List.length r = 136%nat) hands).
    { apply Forall_forall. intros r I. apply (In_nth _ _ []) in I as (p & Hp & <-). change (nth p hands []) with (row hands p).
      rewrite Eh by lia. rewrite length_vsets. apply repeat_length. }
    repeat match goal with |- _ /\ _ => split end; try assumption; try reflexivity; try lia.
    + now rewrite length_vadds.
    + unfold map_rows. rewrite map_length. lia.
    + apply Forall_map_rows; [assumption|]. intros. now rewrite length_vadds.
    + repeat constructor.
  - intros p Hp. ss. rewrite Edl by exact Hp. destruct (L13 p Hp) as [L N]. rewrite map_length. split; [exact L|]. split; [exact N|].
    rewrite Eh by exact Hp. now apply vsets_holds.
  - intros p k Hp Hk. ss. destruct (M6 k Hk) as [M7 _]. destruct (M7 p Hp) as [M8 M9]. rewrite Edl by exact Hp.
    split; [exact M8|]. split; [exact M8|]. unfold map_rows. rewrite row_map by (right; lia).
    rewrite vget_tix; [|exact Hk|]. 2:{ apply row_length; [assumption|lia]. }
    rewrite M9, rem_size, E0 by exact Hk. lia.
  - intros k Hk. ss. rewrite vget_tix by assumption. destruct (M6 k Hk) as [_ ->]. rewrite rem_size, E0 by exact Hk.
    unfold all_dealt. cbn [seq flat_map]. rewrite app_nil_r, !num_app, !Edl, num_all_dealt4 by (try exact Lhis; lia). lia.
  - intros p k. ss. do 4 (destruct p as [|p]; [exact (nth_repeat 0 37 k)|]).
    unfold row, vget. cbn [repeat nth]. destruct p, k; reflexivity.
  - ss. now rewrite Es.
  - ss. now rewrite Ek.
  - ss. repeat split.
  - ss. now rewrite E0.
Qed.
