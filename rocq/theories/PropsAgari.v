(** C39-C42: the win evaluators.  Statements only; proofs are in AgariLemmas.v,
    RoundQuery.v and TurnFacts.v. *)
From Coq Require Import ZArith List Bool String Ascii Sorted Lia Permutation.
From Verif Require Import Base Constants Naki Decision GameInfo Agari Process SpecMeld SpecTokens SpecRound SpecTurn SpecLabels SpecAgari
  RoundExamples RoundLemmas RoundTiles RoundFacts RoundQuery RoundMelds AgariLemmas TurnFacts PropsRound PropsTurn.
Import ListNotations.
Open Scope Z_scope.

(** C39 *)
Theorem C39_ron : forall lib a player htf melds sute tile ck ha rn htf' rons, List.length htf = 4%nat ->
  evaluate_ron lib a player htf melds sute tile ck ha rn = Ok (htf', rons) ->
  htf' = htf /\ List.length rons = 4%nat /\
  forall k, (k < 4)%nat ->
   (Z.of_nat k = player -> nth k rons None = None) /\
   (vget (row sute k) (Z.to_nat (tid tile / 4)) <> 0 -> nth k rons None = None) /\
   (nth k rons None = None \/ nth k rons None = Some (AgariDecision (Z.of_nat k) false)).
Proof.
  intros lib a player htf melds sute tile ck ha rn htf' rons Hl H. destruct (evaluate_ron_same _ _ _ _ _ _ _ _ _ _ _ _ Hl H) as [A B].
  split; [exact A|]. split; [exact B|]. intros k Hk. pose proof (evaluate_ron_nth _ _ _ _ _ _ _ _ _ _ _ _ k Hk H) as N.
  rewrite (proj1 (tix_hd tile)) in N. destruct (Z.eqb_spec (Z.of_nat k) player) as [E|E]; cbn [orb] in N; [auto|].
  destruct (truthy (vget (row sute k) (Z.to_nat (tid tile / 4)))) eqn:T; [auto|].
  split; [contradiction|]. split.
  - intros F. unfold truthy in T. apply Z.eqb_neq in F. rewrite F in T. discriminate.
  - destruct N as (q & b & _ & -> & _). destruct b; auto.
Qed.
Print Assumptions C39_ron.
(** The slot of a player depends on that player's hand, melds, discards and flags only. *)
Theorem C39_ron_own_seat : forall lib a a' player htf htf2 melds melds2 sute sute2 tile ck ha rn r1 r2 h1 h2 k, (k < 4)%nat ->
  evaluate_ron lib a player htf melds sute tile ck ha rn = Ok (h1, r1) ->
  evaluate_ron lib a' player htf2 melds2 sute2 tile ck ha rn = Ok (h2, r2) ->
  row htf k = row htf2 k -> row melds k = row melds2 k -> row sute k = row sute2 k ->
  vget (g_reaches a) k = vget (g_reaches a') k -> vget (g_ippatsu a) k = vget (g_ippatsu a') k -> vget (g_dreaches a) k = vget (g_dreaches a') k ->
  g_doras a = g_doras a' -> g_player_wind a = g_player_wind a' -> g_round_wind a = g_round_wind a' -> g_kyotaku a = g_kyotaku a' -> g_honba a = g_honba a' ->
  nth k r1 None = nth k r2 None.
Proof. exact ron_depends_only_on_own_seat. Qed.
Print Assumptions C39_ron_own_seat.
Theorem C39_tsumo_own_seat : forall lib a a' htf htf2 melds melds2 tile ha ri te ch k,
  row htf k = row htf2 k -> row melds k = row melds2 k ->
  vget (g_reaches a) k = vget (g_reaches a') k -> vget (g_ippatsu a) k = vget (g_ippatsu a') k -> vget (g_dreaches a) k = vget (g_dreaches a') k ->
  g_doras a = g_doras a' -> g_player_wind a = g_player_wind a' -> g_round_wind a = g_round_wind a' -> g_kyotaku a = g_kyotaku a' -> g_honba a = g_honba a' ->
  evaluate_tsumo lib a k htf melds tile ha ri te ch = evaluate_tsumo lib a' k htf2 melds2 tile ha ri te ch.
Proof. exact tsumo_depends_only_on_own_seat. Qed.
Print Assumptions C39_tsumo_own_seat.
(** In a round: no ron for the discarder or for a player who has discarded the tile type. *)
Theorem C39_in_a_round : forall L go e0 evs n s pls w t p, runs L go e0 evs n s (pls ++ [PlDiscard w t]) -> 0 <= p < 4 ->
  (p = w \/ furiten p t pls -> no_ron s w p) /\
  (p <> w -> ~ furiten p t pls -> exists q, ron_asks L s w p q /\ asks_about n s p q /\ q_win_tile q = t /\ q_tsumo q = false /\
     asks_hand (vadd (vec (s_htf s) p) (Z.to_nat (tid t / 4)) 1) q).
Proof.
  intros L go e0 evs n s pls w t p R Hp. destruct (ron_query _ _ _ _ _ _ _ _ _ R p Hp) as [A B]. split; [exact A|].
  intros N F. destruct (B N F) as (q & Q & Ab & H & T & S & _). exists q. auto 10.
Qed.
Print Assumptions C39_in_a_round.
(** A library that always sees a win: everybody but the discarder is offered a ron; the
    second time player 3 is not, who has discarded that tile type. *)
Example C39_example :
  option_map wins_of (ex_half (telling (fun _ => true)) (firstn 5 (tl small_round))) = Some [AgariDecision 1 false; AgariDecision 2 false; AgariDecision 3 false] /\
  option_map wins_of (ex_half (telling (fun _ => true)) (firstn 15 (tl small_round))) = Some [AgariDecision 1 false; AgariDecision 2 false].
Proof. vm_compute. auto. Qed.

(** C40.  [lists_tiles h from n s] (SpecAgari.v). *)
Theorem C40_strings : forall h man pin sou honors, hand_tensor2strs h = (man, pin, sou, honors) ->
  lists_tiles h 0 9 man /\ lists_tiles h 9 9 pin /\ lists_tiles h 18 9 sou /\ lists_tiles h 27 7 honors.
Proof. exact hand_strings. Qed.
Print Assumptions C40_strings.
(** In a round, on a draw: the query lists, type by type, the concealed tiles [hl] and
    the tiles of the melds. *)
Theorem C40_in_a_round : forall L go e0 evs n s pls w t, runs L go e0 evs n s (pls ++ [PlDraw w t]) ->
  exists q h hl, tsumo_asks L s w q /\
   lists_tiles h 0 9 (q_man q) /\ lists_tiles h 9 9 (q_pin q) /\ lists_tiles h 18 9 (q_sou q) /\ lists_tiles h 27 7 (q_honors q) /\
   Permutation (dealt e0 (Z.to_nat w) ++ drawn w (pls ++ [PlDraw w t])) (discarded w pls ++ shown w pls ++ hl) /\
   forall k, (k < 34)%nat -> vget h k = num k (hl ++ shown w pls ++ claimed w pls).
Proof.
  intros L go e0 evs n s pls w t R. destruct (tsumo_query _ _ _ _ _ _ _ _ _ R) as (q & A & _ & H & _).
  destruct (runs_snoc _ _ _ _ _ _ _ _ R) as (_ & _ & _ & _ & _ & _ & S & _). cbn in S.
  destruct (hands_exact _ _ _ _ _ _ _ w R S) as (hl & _ & _ & P & _ & _ & C).
  exists q, (vec (s_htf s) w), hl. split; [exact A|]. destruct (asked_tiles _ _ H) as (H1 & H2 & H3 & H4). do 4 (split; [assumption|]).
  assert (E1 : discarded w (pls ++ [PlDraw w t]) = discarded w pls) by (unfold discarded; rewrite flat_map_app; cbn; now rewrite app_nil_r).
  assert (E2 : shown w (pls ++ [PlDraw w t]) = shown w pls) by (unfold shown; rewrite flat_map_app; cbn; now rewrite app_nil_r).
  assert (E3 : claimed w (pls ++ [PlDraw w t]) = claimed w pls) by (unfold claimed; rewrite flat_map_app; cbn; now rewrite app_nil_r).
  rewrite E1, E2 in P. rewrite E2, E3 in C. split; [exact P|]. intros k Hk. apply C. lia.
Qed.
Print Assumptions C40_in_a_round.
Example C40_example : hand_tensor2strs ([0;2;1;0;0;0;0;0;1] ++ [0;0;0;0;3;0;0;0;0] ++ [1;0;0;0;0;0;0;0;0] ++ [0;0;0;0;0;0;2] ++ [0;1;0]) =
  ("2239", "555", "1", "77")%string.
Proof. vm_compute. reflexivity. Qed.

(** C41 *)
Theorem C41_meld : forall c ex a k, in_range c -> spec_kind c = Some k -> get_exposed c = Ok (ex, a) ->
  exists m, lib_meld_of c = Ok m /\ lm_type m = type_for k /\ (lm_opened m = false <-> k = Ankan) /\
    NoDup (lm_tiles m) /\ Forall valid_id (lm_tiles m) /\
    match k with
    | Kakan => exists t, ex = [t] /\ lm_tiles m = [4 * (t / 4); 4 * (t / 4) + 1; 4 * (t / 4) + 2; 4 * (t / 4) + 3]
    | _ => Permutation (map tile_type (lm_tiles m)) (map tile_type (all_tiles ex a)) /\
           has_red_five (lm_tiles m) = has_red_five (all_tiles ex a)
    end.
Proof. exact meld_for_scorer. Qed.
Print Assumptions C41_meld.
(** In a round the melds of a query are those of the player, in order. *)
Theorem C41_in_a_round : forall L go e0 evs n s pls w t, runs L go e0 evs n s (pls ++ [PlDraw w t]) ->
  exists q, tsumo_asks L s w q /\ mapM lib_meld_of (meld_codes w (pls ++ [PlDraw w t])) = Ok (q_melds q).
Proof.
  intros L go e0 evs n s pls w t R. destruct (tsumo_query _ _ _ _ _ _ _ _ _ R) as (q & A & B & _). exists q. split; [exact A|].
  apply (asked_melds _ _ _ _ _ _ _ _ _ R); [|exact B]. destruct (runs_snoc _ _ _ _ _ _ _ _ R) as (_ & _ & _ & _ & _ & _ & S & _). exact S.
Qed.
Print Assumptions C41_in_a_round.
Theorem C41_in_a_round_ron : forall L go e0 evs n s pls w t p, runs L go e0 evs n s (pls ++ [PlDiscard w t]) -> 0 <= p < 4 ->
  p <> w -> ~ furiten p t pls ->
  exists q, ron_asks L s w p q /\ mapM lib_meld_of (meld_codes p (pls ++ [PlDiscard w t])) = Ok (q_melds q).
Proof.
  intros L go e0 evs n s pls w t p R Hp N F. destruct (ron_query _ _ _ _ _ _ _ _ _ R p Hp) as [_ A].
  destruct (A N F) as (q & B & C & _). exists q. split; [exact B|]. exact (asked_melds _ _ _ _ _ _ _ _ _ R Hp C).
Qed.
Print Assumptions C41_in_a_round_ron.
(** A chi of 4-5-6 pin with the red five, a closed kan of 1m, the added kan of East. *)
Example C41_example : lib_meld_of 30863 = Ok (MkMeld M_CHI [48; 52; 56] true) /\ spec_kind 30863 = Some Chi /\ in_range 30863 /\
  get_exposed 30863 = Ok ([52; 57], Some 49) /\
  lib_meld_of 768 = Ok (MkMeld M_KAN [0; 1; 2; 3] false) /\ lib_meld_of 42611 = Ok (MkMeld M_SHOUMINKAN [108; 109; 110; 111] true).
Proof. vm_compute. auto 10. Qed.

(** C42.  Every player is evaluated with the same seat wind, the dealer's seat number. *)
Theorem C42_same_for_all : forall L go e0 evs n s pls w t, runs L go e0 evs n s (pls ++ [PlDraw w t]) ->
  exists q, tsumo_asks L s w q /\ q_player_wind q = nth 0 (seed_of e0) 0 mod 4 /\ q_round_wind q = nth 0 (seed_of e0) 0 / 4.
Proof.
  intros L go e0 evs n s pls w t R. destruct (tsumo_query _ _ _ _ _ _ _ _ _ R) as (q & A & (_ & _ & _ & _ & B & C & _) & _).
  exists q. rewrite B, C. split; [exact A|]. exact (run_winds _ _ _ _ _ _ _ R).
Qed.
Print Assumptions C42_same_for_all.
(** Whatever numbers [enc] stand for the winds East and West, some player is evaluated
    with a wrong one. *)
Theorem C42_refuted : forall enc, enc 0 <> enc 2 -> exists L go e0 evs n s pls w t, runs L go e0 evs n s (pls ++ [PlDraw w t]) /\
  forall q, tsumo_asks L s w q -> q_player_wind q <> enc (seat_wind (nth 0 (seed_of e0) 0) w).
Proof.
  intros enc Hd. destruct (Z.eq_dec (enc 0) 0) as [E|E].
  - exists (telling (fun q => q_player_wind q =? 0)), 169, ex_init, (firstn 8 (tl small_round)).
    eexists _, _, [PlDraw 0 3; PlCall 0 768; PlDora 52; PlDraw 0 124; PlDiscard 0 110; PlCall 1 42603; PlDiscard 1 77], 2, 117.
    split; [run|]. intros q (b & so & ds & i & r & A & B). cbn [l_agari telling] in A. injection A as <-.
    change (seat_wind _ _) with 2. destruct (Z.eqb_spec (q_player_wind q) 0) as [->|N]; [congruence|].
    exfalso. vm_compute in B. discriminate B.
  - exists (telling (fun q => q_player_wind q =? 0)), 169, ex_init, (firstn 1 (tl small_round)).
    eexists _, _, [], 0, 3.
    split; [run|]. intros q (b & so & ds & i & r & A & B). cbn [l_agari telling] in A. injection A as <-.
    change (seat_wind _ _) with 0. destruct (Z.eqb_spec (q_player_wind q) 0) as [->|N]; [congruence|].
    exfalso. vm_compute in B. discriminate B.
Qed.
Print Assumptions C42_refuted.
