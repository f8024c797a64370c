(** C121: calls the rules forbid at the end of the wall and after four kans.  Uses the
    offers of C38 and C85. *)
From Coq Require Import ZArith List Bool String Lia Permutation.
From Verif Require Import Base Constants Naki Decision GameInfo Agari Process SpecMeld SpecTokens SpecRound SpecTurn SpecDecision SpecLabels SpecOffers
  NakiLemmas DecisionLemmas RoundExamples RoundTiles RoundFacts RoundFlags RoundQuery TurnFacts RoundOffers PropsRound PropsTurn PropsOffers.
Import ListNotations.
Open Scope Z_scope.
Open Scope string_scope.
Open Scope list_scope.
Open Scope Z_scope.

(** A kan has been made with the code [c]. *)
Definition kanb (c : Z) : bool := match spec_kind c with Some Minkan | Some Ankan | Some Kakan => true | _ => false end.
Definition kans (pls : list play) : Z := Z.of_nat (List.length (filter (fun x => match x with PlCall _ c => kanb c | _ => false end) pls)).

(** The last tile of the wall, 1m, is discarded, and the next player is offered a chi. *)
Definition last_discard : list event := last_draw ++ [MkEvent "E1" []].
Theorem C121_refuted_last_tile : exists L go e0 evs n s pls w t q nk, runs L go e0 evs n s (pls ++ [PlDiscard w t]) /\
  draws pls = 70 /\ kans pls = 0 /\ call_offers s w q [NakiDecision q nk false] /\ spec_kind (nk_code nk) = Some Chi.
Proof.
  destruct (runs_exists ex_libs 169 (hd (MkEvent "" []) exhausted_round) last_discard (removelast exhausted_plays ++ [PlDiscard 1 1])) as (n & s & R); [vm_compute; reflexivity|vm_compute; reflexivity|].
  assert (E : exists nk, calls_of ex_libs (hd (MkEvent "" []) exhausted_round) last_discard 2 = Some (1, [NakiDecision 2 nk false]) /\ spec_kind (nk_code nk) = Some Chi)
    by (eexists; split; vm_compute; reflexivity).
  destruct E as (nk & E & K).
  exists ex_libs, 169, (hd (MkEvent "" []) exhausted_round), last_discard, n, s, (removelast exhausted_plays), 1, 1, 2, nk.
  split; [exact R|]. split; [vm_compute; reflexivity|]. split; [vm_compute; reflexivity|]. split; [|exact K]. eapply calls_of_ok; [exact E|exact R].
Qed.
Print Assumptions C121_refuted_last_tile.

(** The dealer makes four closed kans; the next player draws the fourth 1p and is offered
    a fifth. *)
Definition five_kans_init : event :=
  MkEvent "INIT" [("seed","0,0,0,2,3,132"); ("ten","250,250,250,250"); ("oya","0"); ("hai0","0,1,2,3,4,5,6,7,8,9,10,11,12");
    ("hai1","36,37,38,40,44,48,52,56,60,64,68,72,76"); ("hai2","41,45,49,53,57,61,65,69,73,77,80,84,88"); ("hai3","42,46,50,54,58,62,66,70,74,78,81,85,89")].
Definition five_kans : list event :=
  [MkEvent "T13" []; MkEvent "N" [("who","0"); ("m","768")]; MkEvent "T14" []; MkEvent "N" [("who","0"); ("m","1792")]; MkEvent "T15" [];
   MkEvent "N" [("who","0"); ("m","2816")]; MkEvent "T16" []; MkEvent "N" [("who","0"); ("m","3840")]; MkEvent "T20" []; MkEvent "D20" []; MkEvent "U39" []].
Definition five_kans_plays : list play :=
  [PlDraw 0 13; PlCall 0 768; PlDraw 0 14; PlCall 0 1792; PlDraw 0 15; PlCall 0 2816; PlDraw 0 16; PlCall 0 3840; PlDraw 0 20; PlDiscard 0 20].
Theorem C121_refuted_fifth_kan : exists L go e0 evs n s pls w t k, runs L go e0 evs n s (pls ++ [PlDraw w t]) /\ 0 <= k < 34 /\
  kans pls = 4 /\ exists so wins riichi calls i r, s_half s = DuringTurn w so [wins; riichi; calls] i :: r /\ offers_call w Ankan k calls.
Proof.
  destruct (runs_exists ex_libs 169 five_kans_init five_kans (five_kans_plays ++ [PlDraw 1 39])) as (n & s & R); [vm_compute; reflexivity|vm_compute; reflexivity|].
  exists ex_libs, 169, five_kans_init, five_kans, n, s, five_kans_plays, 1, 39, 9. split; [exact R|]. split; [lia|]. split; [vm_compute; reflexivity|].
  destruct (C38_kans_partial _ _ _ _ _ _ _ _ _ R) as (so & wins & riichi & calls & i & r & H1 & _ & H2).
  exists so, wins, riichi, calls, i, r. split; [exact H1|]. apply (H2 9); [lia|].
  destruct R as (s0 & I0 & F & _). 
  assert (G : match init_round 169 five_kans_init with Ok (n, s0) => match foldM (step ex_libs n) s0 five_kans with Ok s => vget (vec (s_ht s) 1) 9 | _ => 0 end | _ => 0 end = 4) by (vm_compute; reflexivity).
  rewrite I0, F in G. exact G.
Qed.
Print Assumptions C121_refuted_fifth_kan.
