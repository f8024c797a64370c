(** C33-C38 and C68-C72: what the win evaluators are told, the token window, execution
    labels and self-turn candidates.  Statements only; proofs are in RoundQuery.v,
    RoundCount.v, RoundLabels.v, RoundMelds.v and TurnFacts.v.

    [tsumo_asks L s w q], [ron_asks L s w p q] (SpecTurn.v): the win decisions recorded
    last are the answer of the scoring library [L] to the query [q].  [L] is universally
    quantified, so a theorem "exists q, tsumo_asks L s w q /\ ..." fixes the fields of
    the query it mentions: a library that answers by such a field would tell. *)
From Coq Require Import ZArith List Bool String Lia Permutation.
From Verif Require Import Base Constants Naki Decision GameInfo Agari Process SpecMeld SpecTokens SpecRound SpecTurn SpecLabels SpecAgari
  NakiLemmas RoundExamples RoundFlags RoundFacts RoundQuery RoundCount RoundLabels RoundMelds TurnFacts PropsRound.
Import ListNotations.
Open Scope Z_scope.

(** A scoring library that answers by one property of the query. *)
Definition telling (f : query -> bool) : libs := MkLibs (fun q => Ok (f q)) (fun _ => Ok 0).
Definition ex_init : event := hd (MkEvent "" []) small_round.
Definition ex_half (L : libs) (evs : list event) : option (halfturn sobj) :=
  match init_round 169 ex_init with
  | Ok (n, s0) => match foldM (step L n) s0 evs with Ok s => hd_error (s_half s) | Err _ => None end
  | Err _ => None
  end.
Definition wins_of (h : halfturn sobj) : list decision :=
  match h with DuringTurn _ _ (w :: _) _ => w | PostTurn _ _ ds _ => flat_map (fun l => hd [] l) ds | _ => [] end.
Ltac run := eexists; split; [vm_compute; reflexivity|]; split; vm_compute; reflexivity.

(** C33 *)
Theorem C33_tenhou : forall L go e0 evs n s pls w t, runs L go e0 evs n s (pls ++ [PlDraw w t]) ->
  exists q, tsumo_asks L s w q /\ asks_about n s w q /\ asks_hand (vec (s_htf s) w) q /\ q_win_tile q = t /\
    (q_tenhou q = true <-> draws pls = 0).
Proof.
  intros L go e0 evs n s pls w t R. destruct (tsumo_query _ _ _ _ _ _ _ _ _ R) as (q & A & B & C & D & _ & _ & _ & _ & _ & _ & _ & T & _).
  exists q. repeat (split; [assumption|]). rewrite T. apply Z.eqb_eq.
Qed.
Print Assumptions C33_tenhou.
(** and never for a ron on a discard or on an added kan *)
Theorem C33_never_ron : forall L go e0 evs n s pls w t p, runs L go e0 evs n s (pls ++ [PlDiscard w t]) -> 0 <= p < 4 ->
  p <> w -> ~ furiten p t pls -> exists q, ron_asks L s w p q /\ q_tenhou q = false /\ q_chiihou q = false.
Proof.
  intros L go e0 evs n s pls w t p R Hp N F. destruct (ron_query _ _ _ _ _ _ _ _ _ R p Hp) as [_ A].
  destruct (A N F) as (q & B & _ & _ & _ & _ & _ & _ & _ & _ & _ & T & C & _). exists q. auto.
Qed.
Print Assumptions C33_never_ron.
Example C33_example :
  option_map wins_of (ex_half (telling q_tenhou) (firstn 1 (tl small_round))) = Some [AgariDecision 0 false] /\
  option_map wins_of (ex_half (telling q_tenhou) (firstn 4 (tl small_round))) = Some [] /\
  option_map wins_of (ex_half (telling q_tenhou) (firstn 8 (tl small_round))) = Some [].
Proof. vm_compute. auto. Qed.

(** C34.  Flagged chiihou means: second to fourth draw and nobody has claimed a tile;
    without any call before it is flagged exactly on these draws. *)
Theorem C34_chiihou_partial : forall L go e0 evs n s pls w t, runs L go e0 evs n s (pls ++ [PlDraw w t]) ->
  exists q, tsumo_asks L s w q /\
   (q_chiihou q = true -> 1 <= draws pls <= 3 /\ never_opened pls) /\
   (calls pls = 0 -> (q_chiihou q = true <-> 1 <= draws pls <= 3)).
Proof. exact chiihou_query. Qed.
Print Assumptions C34_chiihou_partial.
Theorem C34_double_riichi_partial : forall L go e0 evs n s pls p, runs L go e0 evs n s pls -> 0 <= p < 4 ->
  (flag (s_dreaches s) p = 1 -> exists h1 h2, pls = h1 ++ PlReach2 p :: h2 /\ draws h1 <= 4 /\ never_opened h1) /\
  (forall h1 h2, pls = h1 ++ PlReach2 p :: h2 -> calls h1 = 0 -> draws h1 <= 4 -> flag (s_dreaches s) p = 1).
Proof.
  intros L go e0 evs n s pls p R Hp. split; [exact (dreach_split _ _ _ _ _ _ _ _ R Hp)|].
  intros h1 h2 E. exact (dreach_complete _ _ _ _ _ _ _ _ _ _ R Hp E).
Qed.
Print Assumptions C34_double_riichi_partial.
(** The exact rule: nobody has claimed a tile, and the step count (SpecTurn.v) is 1-3
    before the draw, at most 4 at the riichi.  A closed kan of seat [w] counts [w + 1]
    steps, so whether it interrupts depends on the seat number. *)
Theorem C34_chiihou_exact_partial : forall L go e0 evs n s pls w t, runs L go e0 evs n s (pls ++ [PlDraw w t]) ->
  exists q, tsumo_asks L s w q /\ (q_chiihou q = true <-> never_opened pls /\ 1 <= steps pls <= 3).
Proof. exact chiihou_exact. Qed.
Print Assumptions C34_chiihou_exact_partial.
Theorem C34_double_riichi_exact_partial : forall L go e0 evs n s pls p, runs L go e0 evs n s pls -> 0 <= p < 4 ->
  (flag (s_dreaches s) p = 1 <-> exists h1 h2, pls = h1 ++ PlReach2 p :: h2 /\ never_opened h1 /\ steps h1 <= 4).
Proof. exact dreach_exact. Qed.
Print Assumptions C34_double_riichi_exact_partial.
Theorem C34_closed_kan_steps : forall w c, 0 <= w < 4 -> spec_kind c = Some Ankan -> steps [PlCall w c] = w + 1.
Proof.
  intros w c Hw K. apply kind_predicates in K. unfold steps, play_steps, is_any_kan. cbn [fold_right]. rewrite K.
  unfold is_ankan in K. apply andb_prop in K as [_ K]. apply Z.eqb_eq in K. rewrite from_who_mod in K.
  rewrite K, Z.sub_0_r, Z.mod_small, orb_true_r by lia. cbn [orb]. lia.
Qed.
Print Assumptions C34_closed_kan_steps.
Example C34_steps_example : steps [PlDraw 0 3; PlCall 0 768; PlDora 52] = 2 /\ never_opened [PlDraw 0 3; PlCall 0 768; PlDora 52] /\
  spec_kind 768 = Some Ankan /\ steps [PlDraw 3 3; PlCall 3 768] = 5.
Proof.
  split; [reflexivity|]. split; [|split; reflexivity]. intros p _ (c & [H|[H|[H|[]]]] & N); try discriminate H. injection H as _ <-. now apply N.
Qed.
(** A closed kan does not interrupt: player 0 draws, makes a closed kan, and the draw
    that follows is evaluated as chiihou / the riichi after it counts as double. *)
Theorem C34_refuted_chiihou : exists L go e0 evs n s pls w t, runs L go e0 evs n s (pls ++ [PlDraw w t]) /\
  calls pls = 1 /\ forall q, tsumo_asks L s w q -> q_chiihou q = true.
Proof.
  exists (telling q_chiihou), 169, ex_init, (firstn 4 (tl small_round)). eexists _, _, [PlDraw 0 3; PlCall 0 768; PlDora 52], 0, 124.
  split; [run|]. split; [reflexivity|]. intros q (b & so & ds & i & r & A & B). cbn [l_agari telling] in A. injection A as <-.
  destruct (q_chiihou q); [reflexivity|exfalso; vm_compute in B; discriminate B].
Qed.
Print Assumptions C34_refuted_chiihou.
Definition kan_then_riichi : list event := firstn 4 (tl small_round) ++
  [MkEvent "REACH" [("who", "0"); ("step", "1")]; MkEvent "D110" []; MkEvent "REACH" [("who", "0"); ("step", "2")]]%string.
Theorem C34_refuted_double_riichi : exists L go e0 evs n s pls p, runs L go e0 evs n s pls /\ 0 <= p < 4 /\
  (exists h1, pls = h1 ++ [PlReach2 p] /\ calls h1 = 1 /\ draws h1 = 2) /\ flag (s_dreaches s) p = 1.
Proof.
  exists ex_libs, 169, ex_init, kan_then_riichi.
  eexists _, _, ([PlDraw 0 3; PlCall 0 768; PlDora 52; PlDraw 0 124; PlReach1 0; PlDiscard 0 110] ++ [PlReach2 0]), 0.
  split; [run|]. split; [lia|]. split; [eexists; split; [reflexivity|split; reflexivity]|reflexivity].
Qed.
Print Assumptions C34_refuted_double_riichi.
(** Without a call the second draw is chiihou; the first and (after the calls) the third are not. *)
Example C34_example :
  option_map wins_of (ex_half (telling q_chiihou) [MkEvent "T3" []; MkEvent "D110" []; MkEvent "U111" []]) = Some [AgariDecision 1 false] /\
  option_map wins_of (ex_half (telling q_chiihou) (firstn 1 (tl small_round))) = Some [] /\
  option_map wins_of (ex_half (telling q_chiihou) (firstn 8 (tl small_round))) = Some [].
Proof. vm_compute. auto. Qed.

(** C35.  The ippatsu flag never reaches the scoring library. *)
Theorem C35_tsumo_never : forall L go e0 evs n s pls w t, runs L go e0 evs n s (pls ++ [PlDraw w t]) ->
  exists q, tsumo_asks L s w q /\ q_ippatsu q = false.
Proof. intros L go e0 evs n s pls w t R. destruct (tsumo_query _ _ _ _ _ _ _ _ _ R) as (q & A & _ & _ & _ & _ & I & _). exists q. auto. Qed.
Print Assumptions C35_tsumo_never.
Theorem C35_ron_never : forall L go e0 evs n s pls w t p, runs L go e0 evs n s (pls ++ [PlDiscard w t]) ->
  consistent (pls ++ [PlDiscard w t]) -> 0 <= p < 4 -> p <> w -> ~ furiten p t pls ->
  exists q, ron_asks L s w p q /\ q_ippatsu q = false.
Proof.
  intros L go e0 evs n s pls w t p R Co Hp N F. destruct (ron_query _ _ _ _ _ _ _ _ _ R p Hp) as [_ A].
  destruct (A N F) as (q & B & _ & _ & _ & _ & I & _). exists q. split; [exact B|].
  destruct (ipp_inv_holds _ _ _ _ _ _ _ R) as (_ & _ & J). specialize (J Co p Hp).
  rewrite turn_app in J. cbn [turn] in J. unfold consistent in Co. apply in_turn_app in Co as [_ [Cw _]]. rewrite I, J; [reflexivity|congruence].
Qed.
Print Assumptions C35_ron_never.
Theorem C35_chankan_never : forall L go e0 evs n s pls w c p, is_kakan c = true -> runs L go e0 evs n s (pls ++ [PlCall w c]) -> 0 <= p < 4 ->
  p <> w -> ~ furiten p (hd 0 (shown_by c)) pls -> exists q, ron_asks L s w p q /\ q_ippatsu q = false.
Proof.
  intros L go e0 evs n s pls w c p K R Hp N F. destruct (chankan_query _ _ _ _ _ _ _ _ _ K R p Hp) as [_ A].
  destruct (A N F) as (q & B & _ & _ & _ & _ & I & _). exists q. auto.
Qed.
Print Assumptions C35_chankan_never.
(** So the property fails: player 2 has declared riichi, no call and one draw follow, and
    the next discard is evaluated for them without ippatsu. *)
Theorem C35_refuted : exists L go e0 evs n s h1 h2 w t p, runs L go e0 evs n s (h1 ++ PlReach2 p :: h2 ++ [PlDiscard w t]) /\
  consistent (h1 ++ PlReach2 p :: h2 ++ [PlDiscard w t]) /\ calls h2 = 0 /\ draws h2 = 1 /\ 0 <= p < 4 /\ p <> w /\
  forall q, ron_asks L s w p q -> q_riichi q = true /\ q_ippatsu q = false.
Proof.
  exists (telling (fun q => q_riichi q && negb (q_ippatsu q))), 169, ex_init, (firstn 13 (tl small_round)).
  eexists _, _, [PlDraw 0 3; PlCall 0 768; PlDora 52; PlDraw 0 124; PlDiscard 0 110; PlCall 1 42603; PlDiscard 1 77; PlDraw 2 117; PlReach1 2; PlDiscard 2 117],
    [PlDraw 3 125], 3, 125, 2.
  split; [run|]. split; [vm_compute; intuition congruence|]. split; [reflexivity|]. split; [reflexivity|]. split; [lia|]. split; [lia|].
  intros q (b & so & ds & li & i & r & A & B & C). cbn [l_agari telling] in A. injection A as <-.
  destruct (q_riichi q), (q_ippatsu q); auto; exfalso; vm_compute in B; injection B as _ <- _ _; vm_compute in C; discriminate C.
Qed.
Print Assumptions C35_refuted.

(** C36.  At most 121 tokens if everybody declares riichi at most once, at most 117 plus
    the number of riichi in any case; no half-turn has a larger index. *)
Theorem C36_window : forall L go evs half tokens, process_round L go evs = Ok (half, tokens) ->
  exists e0 plays results n s pls, evs = e0 :: plays ++ results /\ runs L go e0 plays n s pls /\
  Forall (fun h => 0 <= index_of h <= Z.of_nat (List.length tokens)) half /\
  ((forall p, 0 <= p < 4 -> sticks p pls <= 1) -> Z.of_nat (List.length tokens) < 150 /\ Forall (fun h => 0 <= index_of h < 150) half).
Proof.
  intros L go evs half tokens H. apply window in H as (e0 & pl & re & n & s & pls & E & R & _ & I & B).
  exists e0, pl, re, n, s, pls. split; [exact E|]. split; [exact R|]. split; [exact I|]. intros St. specialize (B St). split; [lia|].
  revert I. apply Forall_impl. intros h. lia.
Qed.
Print Assumptions C36_window.
Theorem C36_bound : forall L go evs half tokens, process_round L go evs = Ok (half, tokens) ->
  exists e0 plays results n s pls, evs = e0 :: plays ++ results /\ runs L go e0 plays n s pls /\
  Z.of_nat (List.length tokens) <= 117 + all_sticks pls.
Proof.
  intros L go evs half tokens H. apply window in H as (e0 & pl & re & n & s & pls & E & R & B & _).
  exists e0, pl, re, n, s, pls. auto.
Qed.
Print Assumptions C36_bound.
Example C36_example : match process_round ex_libs 169 small_round with
  | Ok (half, tokens) => (Nat.eqb (List.length half) 23) && (Nat.eqb (List.length tokens) 13) | Err _ => false end = true.
Proof. vm_compute. reflexivity. Qed.

(** C37.  One theorem per kind of event; [call_marks], [none_marked]: SpecLabels.v. *)
Theorem C37_claims : forall L go e0 evs n s' pls w c, runs L go e0 evs n s' (pls ++ [PlCall w c]) -> consistent (pls ++ [PlCall w c]) ->
  is_ankan c || is_kakan c = false ->
  exists evs1 s p so ds ds' i r, runs L go e0 evs1 n s pls /\
    s_half s = PostTurn p so ds i :: r /\ s_half s' = PostTurn p so ds' i :: r /\
    List.length ds = 4%nat /\ List.length ds' = 4%nat /\ p = turn (-1) pls /\
    (forall q, 0 <= q < 4 -> q <> w -> nth (Z.to_nat q) ds' [] = nth (Z.to_nat q) ds []) /\
    exists wins calls calls', nth (Z.to_nat w) ds [] = [wins; []; calls] /\ nth (Z.to_nat w) ds' [] = [wins; []; calls'] /\
      call_marks w c calls calls'.
Proof. exact other_call_marks. Qed.
Print Assumptions C37_claims.
Theorem C37_own_kans : forall L go e0 evs n s' pls w c, runs L go e0 evs n s' (pls ++ [PlCall w c]) -> consistent (pls ++ [PlCall w c]) ->
  is_ankan c || is_kakan c = true ->
  exists evs1 s so wins riichi calls calls' i r new, runs L go e0 evs1 n s pls /\
    s_half s = DuringTurn w so [wins; riichi; calls] i :: r /\ s_half s' = new ++ DuringTurn w so [wins; riichi; calls'] i :: r /\
    call_marks w c calls calls' /\ Forall none_marked new /\ (is_kakan c = false -> new = []).
Proof. exact own_kan_marks. Qed.
Print Assumptions C37_own_kans.
Theorem C37_riichi : forall L go e0 evs n s' pls w, runs L go e0 evs n s' (pls ++ [PlReach1 w]) -> consistent (pls ++ [PlReach1 w]) ->
  exists evs1 s so wins riichi riichi' calls i r, runs L go e0 evs1 n s pls /\
    s_half s = DuringTurn w so [wins; riichi; calls] i :: r /\ s_half s' = DuringTurn w so [wins; riichi'; calls] i :: r /\
    ((riichi = [] /\ riichi' = []) \/ exists d, riichi = [d] /\ riichi' = [set_executed d] /\ d_player d = w).
Proof. exact riichi_marks. Qed.
Print Assumptions C37_riichi.
Theorem C37_nothing_else : forall L go e0 evs n s' pls a, runs L go e0 evs n s' (pls ++ [a]) ->
  match a with PlCall _ _ | PlReach1 _ => True | _ =>
  exists evs1 s new, runs L go e0 evs1 n s pls /\ s_half s' = new ++ s_half s /\ Forall none_marked new end.
Proof. exact rest_marks. Qed.
Print Assumptions C37_nothing_else.
(** At every point: no win is ever marked, at most one call per half-turn is. *)
Theorem C37_always : forall L go e0 evs n s pls, runs L go e0 evs n s pls -> Forall labels_ok (s_half s).
Proof. intros L go e0 evs n s pls R. apply lab_inv_holds in R. apply R. Qed.
Print Assumptions C37_always.
(** The first draw of the example offers the closed kan of 1m; the logged kan marks it;
    a pon offered in the real round is marked by the logged pon (code 46155). *)
Definition calls_of (h : halfturn sobj) : list (Z * bool) :=
  match h with
  | DuringTurn _ _ [_; _; c] _ => map (fun d => match d with NakiDecision _ nk e => (nk_code nk, e) | _ => (0, false) end) c
  | PostTurn _ _ ds _ => flat_map (fun l => map (fun d => match d with NakiDecision _ nk e => (nk_code nk, e) | _ => (0, false) end) (nth 2 l [])) ds
  | _ => [] end.
Example C37_example :
  option_map calls_of (ex_half ex_libs (firstn 1 (tl small_round))) = Some [(0, false)] /\
  option_map calls_of (ex_half ex_libs (firstn 2 (tl small_round))) = Some [(0, true)] /\
  consistent [PlDraw 0 3; PlCall 0 768; PlDora 52; PlDraw 0 124; PlDiscard 0 110; PlCall 1 42603] /\
  option_map (fun s => map calls_of (firstn 1 (s_half s))) (ex_after real_round 30) = Some [[(46091, false)]] /\
  option_map (fun s => map calls_of (firstn 1 (s_half s))) (ex_after real_round 31) = Some [[(46091, true)]].
Proof. split; [vm_compute; reflexivity|]. split; [vm_compute; reflexivity|]. split; [vm_compute; intuition congruence|]. split; vm_compute; reflexivity. Qed.

(** C38.  The kans offered on a draw, exactly: closed kans as they should be; an added
    kan of type [k] when tile number [k] (not a tile of type [k]) is held. *)
Theorem C38_kans_partial : forall L go e0 evs n s pls w t, runs L go e0 evs n s (pls ++ [PlDraw w t]) ->
  exists so wins riichi calls i r, s_half s = DuringTurn w so [wins; riichi; calls] i :: r /\
  (forall d, In d calls -> exists nk, d = NakiDecision w nk false /\ (spec_kind (nk_code nk) = Some Ankan \/ spec_kind (nk_code nk) = Some Kakan)) /\
  forall k, 0 <= k < 34 ->
   (offers_call w Ankan k calls <-> vget (vec (s_ht s) w) (Z.to_nat k) = 4) /\
   (offers_call w Kakan k calls <-> has_pon w k pls /\ vget (vec (s_hands s) w) (Z.to_nat k) = 1).
Proof. exact draw_candidates. Qed.
Print Assumptions C38_kans_partial.
(** Player 1 has a pon of East (type 27) and draws the fourth East (tile 111): no added
    kan is offered. *)
Theorem C38_refuted : exists L go e0 evs n s pls w t k, runs L go e0 evs n s (pls ++ [PlDraw w t]) /\ 0 <= k < 34 /\
  has_pon w k pls /\ t / 4 = k /\ vget (vec (s_hands s) w) (Z.to_nat t) = 1 /\
  exists so wins riichi calls i r, s_half s = DuringTurn w so [wins; riichi; calls] i :: r /\ ~ offers_call w Kakan k calls.
Proof.
  exists ex_libs, 169, ex_init, (firstn 16 (tl small_round)).
  eexists _, _, [PlDraw 0 3; PlCall 0 768; PlDora 52; PlDraw 0 124; PlDiscard 0 110; PlCall 1 42603; PlDiscard 1 77; PlDraw 2 117; PlReach1 2; PlDiscard 2 117;
    PlReach2 2; PlDraw 3 125; PlDiscard 3 125; PlDraw 0 126; PlDiscard 0 126], 1, 111, 27.
  split; [run|]. split; [lia|]. split.
  { exists 42603. eexists _, _. split; [vm_compute; now left|]. split; [vm_compute; reflexivity|]. split; [vm_compute; reflexivity|].
    split; [repeat constructor; vm_compute; reflexivity|discriminate]. }
  split; [reflexivity|]. split; [vm_compute; reflexivity|]. eexists _, _, _, _, _, _. split; [vm_compute; reflexivity|].
  intros (nk & ex & a & H & _). exact H.
Qed.
Print Assumptions C38_refuted.

(** C68.  A draw after a kan is not reported as a replacement draw. *)
Theorem C68_rinshan_never : forall L go e0 evs n s pls w t, runs L go e0 evs n s (pls ++ [PlDraw w t]) ->
  exists q, tsumo_asks L s w q /\ q_rinshan q = false.
Proof. intros L go e0 evs n s pls w t R. destruct (tsumo_query _ _ _ _ _ _ _ _ _ R) as (q & A & _ & _ & _ & _ & _ & I & _). exists q. auto. Qed.
Print Assumptions C68_rinshan_never.
Theorem C68_refuted : exists L go e0 evs n s w c t, runs L go e0 evs n s [PlDraw w t; PlCall w c; PlDora 52; PlDraw w 124] /\ is_ankan c = true /\
  forall q, tsumo_asks L s w q -> q_rinshan q = false.
Proof.
  exists (telling (fun q => negb (q_rinshan q))), 169, ex_init, (firstn 4 (tl small_round)). eexists _, _, 0, 768, 3.
  split; [run|]. split; [reflexivity|]. intros q (b & so & ds & i & r & A & B). cbn [l_agari telling] in A. injection A as <-.
  destruct (q_rinshan q); [exfalso; vm_compute in B; discriminate B|reflexivity].
Qed.
Print Assumptions C68_refuted.

(** C69.  The last-tile flags: the counter of remaining draws decides, for self-draws and
    (under the name of the self-draw flag) for discards; the houtei flag is never set. *)
Theorem C69_last_tile_tsumo : forall L go e0 evs n s pls w t, runs L go e0 evs n s (pls ++ [PlDraw w t]) ->
  exists q, tsumo_asks L s w q /\ q_houtei q = false /\
    (q_haitei q = true <-> draws (pls ++ [PlDraw w t]) + kans pls + new_doras pls = 70).
Proof.
  intros L go e0 evs n s pls w t R. destruct (tsumo_query _ _ _ _ _ _ _ _ _ R) as (q & A & _ & _ & _ & _ & _ & _ & _ & H & I & _).
  exists q. split; [exact A|]. split; [exact I|]. rewrite H. apply count_inv_holds in R as [C _]. rewrite Z.eqb_eq, C, kans_app, new_doras_app.
  cbn [kans new_doras filter List.length]. change (kans [PlDraw w t]) with 0. change (new_doras [PlDraw w t]) with 0. lia.
Qed.
Print Assumptions C69_last_tile_tsumo.
Theorem C69_last_tile_ron_partial : forall L go e0 evs n s pls w t p, runs L go e0 evs n s (pls ++ [PlDiscard w t]) -> 0 <= p < 4 ->
  p <> w -> ~ furiten p t pls -> exists q, ron_asks L s w p q /\ q_houtei q = false /\
    (q_haitei q = true <-> draws pls + kans pls + new_doras pls = 70).
Proof.
  intros L go e0 evs n s pls w t p R Hp N F. destruct (ron_query _ _ _ _ _ _ _ _ _ R p Hp) as [_ A].
  destruct (A N F) as (q & B & _ & _ & _ & _ & _ & _ & _ & H & I & _). exists q. split; [exact B|]. split; [exact I|].
  rewrite H. apply count_inv_holds in R as [C _]. rewrite Z.eqb_eq, C, kans_app, new_doras_app, draws_app.
  change (kans [PlDiscard w t]) with 0. change (new_doras [PlDiscard w t]) with 0. change (draws [PlDiscard w t]) with 0. lia.
Qed.
Print Assumptions C69_last_tile_ron_partial.

(** The seventieth discard of an exhausted wall: player 2 is evaluated without houtei. *)
Definition exhausted_plays : list play := flat_map (fun e => match play_of e with Some x => [x] | None => [] end) (tl exhausted_round).
Theorem C69_refuted : exists L go e0 evs n s pls w t p, runs L go e0 evs n s (pls ++ [PlDiscard w t]) /\ draws pls = 70 /\ calls pls = 0 /\
  0 <= p < 4 /\ p <> w /\ forall q, ron_asks L s w p q -> q_houtei q = false /\ q_haitei q = true.
Proof.
  exists (telling (fun q => negb (q_houtei q) && q_haitei q)), 169, (hd (MkEvent "" []) exhausted_round), (tl exhausted_round).
  destruct (runs_exists (telling (fun q => negb (q_houtei q) && q_haitei q)) 169 (hd (MkEvent "" []) exhausted_round) (tl exhausted_round)
     (removelast exhausted_plays ++ [PlDiscard 1 121])) as (n & s & R); [vm_compute; reflexivity|vm_compute; reflexivity|].
  exists n, s, (removelast exhausted_plays), 1, 121, 2. split; [exact R|]. split; [vm_compute; reflexivity|]. split; [vm_compute; reflexivity|]. split; [lia|]. split; [lia|].
  intros q Hq. destruct (C69_last_tile_ron_partial _ _ _ _ _ _ _ _ _ 2 R) as (q' & Hq' & H1 & H2); [lia|lia| |].
  - intros (x & Hx & Ht). assert (F : forallb (fun x => negb (x / 4 =? tid 121 / 4)) (discarded 2 (removelast exhausted_plays)) = true) by (vm_compute; reflexivity).
    rewrite forallb_forall in F. apply F in Hx. rewrite Ht in Hx. discriminate Hx.
  - pose proof (ron_asks_same _ _ _ _ _ _ Hq Hq') as E. cbn [l_agari telling] in E. rewrite H1, (proj2 H2) in E by (vm_compute; reflexivity).
    injection E as E. apply andb_prop in E as [E1 E2]. apply negb_true_iff in E1. auto.
Qed.
Print Assumptions C69_refuted.

(** C70.  [meld_codes] (SpecLabels.v): the calls of a player in order, with an added kan
    in the place of the pon it extends. *)
Theorem C70_melds : forall L go e0 evs n s pls p, runs L go e0 evs n s pls -> 0 <= p < 4 ->
  map nk_code (row (s_melds s) (Z.to_nat p)) = meld_codes p pls.
Proof. intros L go e0 evs n s pls p R Hp. apply (melds_inv_holds _ _ _ _ _ _ _ R p Hp). Qed.
Print Assumptions C70_melds.
Example C70_example : option_map (fun s => map (map nk_code) (s_melds s)) (ex_after small_round 16) = Some [[768]; [42603]; []; []] /\
  option_map (fun s => map (map nk_code) (s_melds s)) (ex_after small_round 17) = Some [[768]; [42611]; []; []].
Proof. vm_compute. auto. Qed.

(** C71.  Robbing a kan: asked exactly for added kans, about the added tile. *)
Theorem C71_chankan : forall L go e0 evs n s pls w c p, is_kakan c = true -> runs L go e0 evs n s (pls ++ [PlCall w c]) -> 0 <= p < 4 ->
  (p = w \/ furiten p (hd 0 (shown_by c)) pls -> no_ron s w p) /\
  (p <> w -> ~ furiten p (hd 0 (shown_by c)) pls -> exists q, ron_asks L s w p q /\ q_chankan q = true /\ q_tsumo q = false /\
     q_win_tile q = hd 0 (shown_by c) /\ asks_hand (vadd (vec (s_htf s) p) (Z.to_nat (tid (hd 0 (shown_by c)) / 4)) 1) q).
Proof.
  intros L go e0 evs n s pls w c p K R Hp. destruct (chankan_query _ _ _ _ _ _ _ _ _ K R p Hp) as [A B]. split; [exact A|].
  intros N F. destruct (B N F) as (q & Q & _ & H & T & S & _ & _ & C & _). exists q. auto 10.
Qed.
Print Assumptions C71_chankan.
Theorem C71_not_on_draws : forall L go e0 evs n s pls w t, runs L go e0 evs n s (pls ++ [PlDraw w t]) ->
  exists q, tsumo_asks L s w q /\ q_chankan q = false.
Proof. intros L go e0 evs n s pls w t R. destruct (tsumo_query _ _ _ _ _ _ _ _ _ R) as (q & A & _ & _ & _ & _ & _ & _ & I & _). exists q. auto. Qed.
Print Assumptions C71_not_on_draws.
Theorem C71_not_on_discards : forall L go e0 evs n s pls w t p, runs L go e0 evs n s (pls ++ [PlDiscard w t]) -> 0 <= p < 4 ->
  p <> w -> ~ furiten p t pls -> exists q, ron_asks L s w p q /\ q_chankan q = false.
Proof.
  intros L go e0 evs n s pls w t p R Hp N F. destruct (ron_query _ _ _ _ _ _ _ _ _ R p Hp) as [_ A].
  destruct (A N F) as (q & B & _ & _ & _ & _ & _ & _ & I & _). exists q. auto.
Qed.
Print Assumptions C71_not_on_discards.
Example C71_example :
  option_map wins_of (ex_half (telling q_chankan) (firstn 17 (tl small_round))) = Some [AgariDecision 2 false; AgariDecision 3 false] /\
  option_map wins_of (ex_half (telling q_chankan) (firstn 13 (tl small_round))) = Some [].
Proof. vm_compute. auto. Qed.

(** C72.  The rule for renhou compares the discarder's seat number with the count of draws. *)
Theorem C72_renhou_partial : forall L go e0 evs n s pls w t p, runs L go e0 evs n s (pls ++ [PlDiscard w t]) -> 0 <= p < 4 ->
  p <> w -> ~ furiten p t pls -> exists q, ron_asks L s w p q /\
   (q_renhou q = true -> never_opened pls /\ draws pls <= 3 /\ draws pls <= w) /\
   (calls pls = 0 -> (q_renhou q = true <-> draws pls <= 3 /\ draws pls <= w)).
Proof. exact renhou_query. Qed.
Print Assumptions C72_renhou_partial.
(** Exactly, with calls: by the step count of C34. *)
Theorem C72_renhou_exact_partial : forall L go e0 evs n s pls w t p, runs L go e0 evs n s (pls ++ [PlDiscard w t]) -> 0 <= p < 4 ->
  p <> w -> ~ furiten p t pls -> exists q, ron_asks L s w p q /\
   (q_renhou q = true <-> never_opened pls /\ steps pls <= 3 /\ steps pls <= w).
Proof. exact renhou_exact. Qed.
Print Assumptions C72_renhou_exact_partial.
(** The very first discard, by seat 0: no other player is evaluated with renhou. *)
Theorem C72_refuted : exists L go e0 evs n s t p, runs L go e0 evs n s [PlDraw 0 124; PlDiscard 0 t] /\ 0 <= p < 4 /\ p <> 0 /\
  forall q, ron_asks L s 0 p q -> q_renhou q = false.
Proof.
  exists (telling (fun q => negb (q_renhou q))), 169, ex_init, [MkEvent "T124" []; MkEvent "D110" []]. eexists _, _, 110, 2.
  split; [run|]. split; [lia|]. split; [lia|]. intros q (b & so & ds & li & i & r & A & B & C). cbn [l_agari telling] in A. injection A as <-.
  destruct (q_renhou q); auto; exfalso; vm_compute in B; injection B as _ <- _ _; vm_compute in C; discriminate C.
Qed.
Print Assumptions C72_refuted.
