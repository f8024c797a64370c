(** C84-C86: the riichi and call offers of a round.  [concealed], [of_type], [by_type],
    [riichi_offers], [call_offers]: SpecOffers.v. *)
From Coq Require Import ZArith List Bool String Lia Permutation.
From Verif Require Import Base Constants Naki Decision GameInfo Agari Process SpecMeld SpecTokens SpecRound SpecTurn SpecDecision SpecOffers
  NakiLemmas DecisionLemmas RoundExamples RoundTiles RoundFacts RoundFlags RoundQuery TurnFacts RoundOffers PropsRound PropsTurn.
Import ListNotations.
Open Scope Z_scope.

(** ** C84: when riichi is offered. *)

(** On a draw riichi is offered exactly to a player with a closed hand who has not paid a
    stick yet and whose concealed tiles the shanten library puts at 0 or less.  (What is
    missing: the 1000 points and the four remaining draws the rules ask for.) *)
Theorem C84_offer_partial : forall L go e0 evs n s pls w t, runs L go e0 evs n s (pls ++ [PlDraw w t]) ->
  exists hl re, concealed e0 (pls ++ [PlDraw w t]) w hl /\ riichi_offers s w re /\
    (In (PlReach2 w) pls \/ opened w pls -> re = []) /\
    (~ In (PlReach2 w) pls -> ~ opened w pls ->
       exists sh, l_shanten L (by_type hl) = Ok sh /\ re = if sh <=? 0 then [ReachDecision w false] else []).
Proof. exact riichi_exact. Qed.
Print Assumptions C84_offer_partial.

Definition riichi_of (L : libs) (e0 : event) (evs : list event) : option (Z * list decision) :=
  match init_round 169 e0 with
  | Ok (n, s0) => match foldM (step L n) s0 evs with
                  | Ok s => match s_half s with DuringTurn w _ [_; re; _] _ :: _ => Some (w, re) | _ => None end
                  | Err _ => None end
  | Err _ => None
  end.
Lemma riichi_of_ok L e0 evs w re n s pls : riichi_of L e0 evs = Some (w, re) -> runs L 169 e0 evs n s pls -> riichi_offers s w re.
Proof.
  intros H (s0 & E0 & E & _). unfold riichi_of in H. rewrite E0, E in H. clear E E0. destruct (s_half s) as [|[w' so ds i| |] r] eqn:Hs; try discriminate H.
  destruct ds as [|ag [|re' [|cs [|]]]]; try discriminate H. injection H as -> ->. now exists so, ag, cs, i, r.
Qed.

(** A dealer without points is offered riichi on the first draw. *)
Definition poor_init : event :=
  MkEvent "INIT" [("seed","0,0,1,2,3,132"); ("ten","0,490,250,250"); ("oya","0"); ("hai0","0,1,2,16,20,24,36,40,44,110,112,116,120"); ("hai1","108,109,37,41,45,49,53,57,61,65,69,73,77"); ("hai2","72,76,80,84,88,92,96,100,104,4,8,12,113"); ("hai3","5,9,13,17,21,25,29,33,38,42,46,50,54")]%string.
Theorem C84_refuted_points : exists L go e0 evs n s pls w t, runs L go e0 evs n s (pls ++ [PlDraw w t]) /\
  flag (s_scores s) w = 0 /\ riichi_offers s w [ReachDecision w false].
Proof.
  destruct (runs_exists ex_libs 169 poor_init [MkEvent "T3" []] [PlDraw 0 3]) as (n & s & R); [vm_compute; reflexivity|vm_compute; reflexivity|].
  exists ex_libs, 169, poor_init, [MkEvent "T3" []], n, s, [], 0, 3. split; [exact R|]. split.
  - destruct R as (s0 & E0 & E & _).
    assert (A : match init_round 169 poor_init with Ok (n, s0) => match foldM (step ex_libs n) s0 [MkEvent "T3" []] with Ok s => Some (flag (s_scores s) 0) | Err _ => None end | Err _ => None end = Some 0) by (vm_compute; reflexivity).
    rewrite E0, E in A. now injection A.
  - apply (riichi_of_ok ex_libs poor_init [MkEvent "T3" []] 0 [ReachDecision 0 false] n s ([] ++ [PlDraw 0 3])); [vm_compute; reflexivity|exact R].
Qed.
Print Assumptions C84_refuted_points.

(** The player drawing the last tile of the wall is offered riichi. *)
Definition last_draw : list event := removelast (tl exhausted_round).
Theorem C84_refuted_wall : exists L go e0 evs n s pls w t, runs L go e0 evs n s (pls ++ [PlDraw w t]) /\
  draws (pls ++ [PlDraw w t]) = 70 /\ riichi_offers s w [ReachDecision w false].
Proof.
  destruct (runs_exists ex_libs 169 (hd (MkEvent "" []) exhausted_round) last_draw
     (removelast (removelast exhausted_plays) ++ [PlDraw 1 121])) as (n & s & R); [vm_compute; reflexivity|vm_compute; reflexivity|].
  exists ex_libs, 169, (hd (MkEvent "" []) exhausted_round), last_draw, n, s, (removelast (removelast exhausted_plays)), 1, 121.
  split; [exact R|]. split; [vm_compute; reflexivity|].
  eapply riichi_of_ok; [|exact R]. vm_compute. reflexivity.
Qed.
Print Assumptions C84_refuted_wall.

(** With a library that sees tenpai only in hands holding four 1m, the first draw of
    the example round offers riichi; after the kan it does not. *)
Definition four_ones : libs := MkLibs (fun _ => Ok false) (fun h => Ok (if nth 0 h 0 =? 4 then 0 else 3)).
Example C84_example :
  riichi_of four_ones ex_init (firstn 1 (tl small_round)) = Some (0, [ReachDecision 0 false]) /\
  riichi_of four_ones ex_init (firstn 4 (tl small_round)) = Some (0, []) /\
  riichi_of ex_libs ex_init (firstn 18 (tl small_round)) = Some (1, []) /\
  riichi_of ex_libs ex_init (firstn 21 (tl small_round)) = Some (2, []).
Proof. repeat split; vm_compute; reflexivity. Qed.

(** ** C85: the calls offered after a discard fit the hands. *)

(** The discarder is offered nothing.  Every candidate of another player is a chi, pon or
    open kan from the discarder, a chi only for the next player, and - except in the
    corner of C13 - it claims the discarded type and shows tiles the player holds.  Pon and
    open kan are offered by the number of copies held (C15). *)
Theorem C85_calls_partial : forall L go e0 evs n s pls w t q, runs L go e0 evs n s (pls ++ [PlDiscard w t]) -> 0 <= q < 4 ->
  exists hl calls, concealed e0 (pls ++ [PlDiscard w t]) q hl /\ call_offers s w q calls /\
    (q = w -> calls = []) /\
    (forall d, In d calls -> exists nk k, d = NakiDecision q nk false /\ spec_kind (nk_code nk) = Some k /\
       (k = Chi \/ k = Pon \/ k = Minkan) /\ (q + from_who (nk_code nk)) mod 4 = w /\ (k = Chi -> q = (w + 1) mod 4) /\
       (~ (k = Chi /\ has_red_of (tid t / 4) hl /\ tid t / 4 < 27 /\ (tid t / 4 mod 9 = 3 \/ tid t / 4 mod 9 = 5) /\
           p_number (pattern_chi (nk_code nk)) = tid t / 4 mod 9 - 1) ->
        exists ex a, get_exposed (nk_code nk) = Ok (ex, Some a) /\ tile_type a = tid t / 4 /\
          forall x, 0 <= x < 34 -> Z.of_nat (count_occ Z.eq_dec (map tile_type ex) x) <= of_type x hl)) /\
    (q <> w ->
      (some_call Pon calls <-> of_type (tid t / 4) hl = 2 \/
         (of_type (tid t / 4) hl = 3 /\ five_type (tid t / 4) /\ has_red_of (tid t / 4) hl)) /\
      (some_call Minkan calls <-> of_type (tid t / 4) hl = 3)).
Proof. exact calls_exact. Qed.
Print Assumptions C85_calls_partial.

(** The chi offered to the next player are exactly those of [chi_rule] (SpecDecision.v) for
    the player's concealed tiles. *)
Theorem C85_chi_exact : forall L go e0 evs n s pls w t, runs L go e0 evs n s (pls ++ [PlDiscard w t]) -> tid t / 4 < 27 ->
  let q := (w + 1) mod 4 in
  exists hl calls, concealed e0 (pls ++ [PlDiscard w t]) q hl /\ call_offers s w q calls /\
  forall st nb pl red, (exists nk, In (NakiDecision q nk false) calls /\ chi_of (nk_code nk) st nb pl red) <->
    st = tid t / 4 / 9 /\ chi_rule (counts hl) (tid t / 4) (red_fiveb (tid t)) nb pl red.
Proof. exact chi_offers. Qed.
Print Assumptions C85_chi_exact.

Definition calls_of (L : libs) (e0 : event) (evs : list event) (q : Z) : option (Z * list decision) :=
  match init_round 169 e0 with
  | Ok (n, s0) => match foldM (step L n) s0 evs with
                  | Ok s => match s_half s with PostTurn w _ ds _ :: _ => match nth (Z.to_nat q) ds [] with [_; []; cs] => Some (w, cs) | _ => None end | _ => None end
                  | Err _ => None end
  | Err _ => None
  end.
Lemma calls_of_ok L e0 evs q w cs n s pls : calls_of L e0 evs q = Some (w, cs) -> runs L 169 e0 evs n s pls -> call_offers s w q cs.
Proof.
  intros H (s0 & E0 & E & _). unfold calls_of in H. rewrite E0, E in H. clear E E0. destruct (s_half s) as [|[|w' so ds i|w' so ds i] r] eqn:Hs; try discriminate H.
  destruct (nth (Z.to_nat q) ds []) as [|wins [|[|] [|cs' [|]]]] eqn:Hn; try discriminate H. injection H as -> ->. now exists so, ds, wins, i, r.
Qed.
(** The dealer's 110 (3z) is called by player 1, who holds two of them. *)
Example C85_example :
  option_map (fun x => map (fun d => match d with NakiDecision p nk _ => (p, spec_kind (nk_code nk)) | _ => (9, None) end) (snd x))
    (calls_of ex_libs ex_init (firstn 5 (tl small_round)) 1) = Some [(1, Some Pon)] /\
  option_map snd (calls_of ex_libs ex_init (firstn 5 (tl small_round)) 0) = Some [].
Proof. split; vm_compute; reflexivity. Qed.

(** ** C86: calls are not offered to players in riichi. *)

(** In fact the offers look at nothing but the discard and the four concealed hands: two
    rounds that agree on those offer the same calls, whoever is in riichi. *)
Theorem C86_hands_only : forall L L' go go' e0 e0' evs evs' n n' s s' pls pls' w t,
  runs L go e0 evs n s (pls ++ [PlDiscard w t]) -> runs L' go' e0' evs' n' s' (pls' ++ [PlDiscard w t]) ->
  (forall p, 0 <= p < 4 -> exists hl, concealed e0 (pls ++ [PlDiscard w t]) p hl /\ concealed e0' (pls' ++ [PlDiscard w t]) p hl) ->
  forall q, 0 <= q < 4 -> exists calls, call_offers s w q calls /\ call_offers s' w q calls.
Proof. exact hands_only. Qed.
Print Assumptions C86_hands_only.

(** Player 2 is in riichi, player 1 discards 1s and player 2 is offered a chi. *)
Definition riichi_chi : list event := firstn 19 (tl small_round) ++ [MkEvent "E73" []].
Definition riichi_chi_plays : list play := flat_map (fun e => match play_of e with Some x => [x] | None => [] end) (firstn 19 (tl small_round)).
Theorem C86_refuted : exists L go e0 evs n s pls w t q nk, runs L go e0 evs n s (pls ++ [PlDiscard w t]) /\
  In (PlReach2 q) pls /\ call_offers s w q [NakiDecision q nk false] /\ spec_kind (nk_code nk) = Some Chi.
Proof.
  destruct (runs_exists ex_libs 169 ex_init riichi_chi (riichi_chi_plays ++ [PlDiscard 1 73])) as (n & s & R); [vm_compute; reflexivity|vm_compute; reflexivity|].
  assert (E : exists nk, calls_of ex_libs ex_init riichi_chi 2 = Some (1, [NakiDecision 2 nk false]) /\ spec_kind (nk_code nk) = Some Chi)
    by (eexists; split; vm_compute; reflexivity).
  destruct E as (nk & E & K).
  exists ex_libs, 169, ex_init, riichi_chi, n, s, riichi_chi_plays, 1, 73, 2, nk. split; [exact R|]. split.
  - assert (X : existsb (fun x => match x with PlReach2 p => p =? 2 | _ => false end) riichi_chi_plays = true) by (vm_compute; reflexivity).
    apply existsb_exists in X as (x & I & X). destruct x; try discriminate X. apply Z.eqb_eq in X. now subst.
  - split; [|exact K]. eapply calls_of_ok; [exact E|exact R].
Qed.
Print Assumptions C86_refuted.

(** The same round with and without the riichi meets the hypotheses of C86_hands_only. *)
Definition calm_chi : list event := filter (fun e => negb (String.eqb (e_tag e) "REACH")) riichi_chi.
Definition calm_plays : list play := filter (fun x => match x with PlReach1 _ | PlReach2 _ => false | _ => true end) riichi_chi_plays.
Example C86_example : exists n s n' s', runs ex_libs 169 ex_init riichi_chi n s (riichi_chi_plays ++ [PlDiscard 1 73]) /\
  runs ex_libs 169 ex_init calm_chi n' s' (calm_plays ++ [PlDiscard 1 73]) /\ riichi_chi_plays <> calm_plays /\
  forall p, 0 <= p < 4 -> exists hl, concealed ex_init (riichi_chi_plays ++ [PlDiscard 1 73]) p hl /\ concealed ex_init (calm_plays ++ [PlDiscard 1 73]) p hl.
Proof.
  destruct (runs_exists ex_libs 169 ex_init riichi_chi (riichi_chi_plays ++ [PlDiscard 1 73])) as (n & s & R); [vm_compute; reflexivity|vm_compute; reflexivity|].
  destruct (runs_exists ex_libs 169 ex_init calm_chi (calm_plays ++ [PlDiscard 1 73])) as (n' & s' & R'); [vm_compute; reflexivity|vm_compute; reflexivity|].
  exists n, s, n', s'. split; [exact R|]. split; [exact R'|]. split.
  - intros E. apply (f_equal (@List.length play)) in E. vm_compute in E. discriminate E.
  - intros p Hp. destruct (hands_exact _ _ _ _ _ _ _ p R Hp) as (hl & _ & _ & P & _). exists hl. split; [exact P|]. unfold concealed.
    assert (K : p = 0 \/ p = 1 \/ p = 2 \/ p = 3) by lia.
    assert (A : drawn p (calm_plays ++ [PlDiscard 1 73]) = drawn p (riichi_chi_plays ++ [PlDiscard 1 73]) /\
                discarded p (calm_plays ++ [PlDiscard 1 73]) = discarded p (riichi_chi_plays ++ [PlDiscard 1 73]) /\
                shown p (calm_plays ++ [PlDiscard 1 73]) = shown p (riichi_chi_plays ++ [PlDiscard 1 73]))
      by (destruct K as [->|[->|[->| ->]]]; repeat split; vm_compute; reflexivity).
    destruct A as (A1 & A2 & A3). rewrite A1, A2, A3. exact P.
Qed.
