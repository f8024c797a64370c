(** C113: is a win that happens the target of its sample? *)
From Coq Require Import ZArith List Bool String Lia PeanoNat.
From Verif Require Import Base Constants Naki Decision GameInfo Agari Process SpecMeld SpecRound SpecTokens SpecLabels SpecTable RoundLemmas RoundFacts RoundExamples Tensor SpecTensor TensorLemmas TensorRound PropsTensor PropsTable PropsTurn PropsRound
  PropsFuriten SpecWinLabel.
Import ListNotations.
Open Scope Z_scope.

(** ** The win is never the target *)
Lemma recorded_wins L go e0 rest half tokens pls : process_round L go (e0 :: rest) = Ok (half, tokens) -> plays_of_round (e0 :: rest) pls ->
  Forall (fun h => match h with
    | DuringTurn _ _ ds _ => True
    | DiscardTurn _ _ _ _ => True
    | PostTurn _ _ ds _ => forall q, 0 <= q < 4 -> exists wins calls, nth (Z.to_nat q) ds [] = [wins; []; calls] /\ unmarked wins end) half.
Proof.
  intros H P. destruct (round_runs _ _ _ _ _ _ _ H P) as (plays & n & s & R & -> & _ & _).
  apply Forall_forall. intros h I. apply in_map_iff in I as (h0 & <- & I). apply in_rev in I.
  pose proof (C37_always _ _ _ _ _ _ _ R) as F. rewrite Forall_forall in F. specialize (F h0 I).
  destruct h0 as [p v ds i|p v t i|p v ds i]; cbn [map_half labels_ok] in *; auto.
  destruct F as (_ & _ & F). intros q Hq. destruct (F q Hq) as (w & c & E & U & _). exists w, c. auto.
Qed.

(** C113 is false of every round: no sample of it has the win as its target. *)
Theorem C113_never_partial : forall L go e0 rest half tokens pls a t, process_round L go (e0 :: rest) = Ok (half, tokens) -> plays_of_round (e0 :: rest) pls ->
  build_tensors a half tokens = Ok t -> Forall (fun r => r_label r <> WIN) (t_during t ++ t_post t).
Proof.
  intros L go e0 rest half tokens pls a t H P B. destruct (accepted_formed _ _ _ _ _ _ _ H P) as (W & Ix & _).
  pose proof (recorded_wins _ _ _ _ _ _ _ H P) as U. rewrite Forall_forall in W, U. unfold WIN. apply Forall_app. split; apply Forall_forall; intros r I.
  - pose proof (C46_exact_partial _ _ _ _ B ltac:(now apply Forall_forall) Ix) as F.
    destruct (Forall2_In_r _ _ _ F r I) as (h & Ih & T & _).
    apply filter_In in Ih as [Ih _]. specialize (W h Ih). destruct T as [(d & Id & _ & A)|(_ & ->)]; [|discriminate].
    destruct h as [p v ds i|p v x i|p v ds i]; cbn [calls_in] in Id; try contradiction Id. cbn [well_formed] in W.
    destruct W as (w & ri & c & -> & _ & _ & _ & _ & C). rewrite Forall_forall in C. destruct (C d Id) as (Cd & j & Aj & Bj).
    destruct act_facts as (_ & _ & A3 & _). rewrite (A3 d _ _ Cd A Aj). lia.
  - destruct (C45_labels _ _ _ _ B ltac:(now apply Forall_forall) Ix) as (rows & E & F). rewrite E in I. apply in_concat in I as (rs & Irs & I).
    destruct (Forall2_In_r _ _ _ F rs Irs) as (h & Ih & G). destruct (Forall2_In_r _ _ _ G r I) as (q & Iq & _ & T & _).
    apply filter_In in Ih as [Ih _]. specialize (W h Ih). specialize (U h Ih).
    destruct T as [(d & Id & X & A)|(_ & ->)]; [|discriminate].
    destruct h as [p v ds i|p v x i|p v ds i]; cbn [decisions_for] in Id; try contradiction Id. cbn [well_formed] in W. destruct W as (Hp & Ld & Wd).
    assert (Hq : 0 <= q < 4).
    { destruct (Z_lt_dec q 4) as [Q|Q].
      - split; [|exact Q]. cbn [asked] in Iq.
        assert (K : forall l, In q (up_to_actor (PostTurn p v ds i) l) -> In q l).
        { clear. intros l. induction l as [|b l IH]; cbn [up_to_actor]; [auto|]. destruct (decisions_for _ b); intros K; [right; auto|].
          destruct K as [K|K]; [now left|right]. destruct (existsb d_executed _); [destruct K|auto]. }
        apply K in Iq. cbn [In] in Iq. pose proof (Z.mod_pos_bound (p + 1) 4). pose proof (Z.mod_pos_bound (p + 2) 4). pose proof (Z.mod_pos_bound (p + 3) 4). lia.
      - exfalso. rewrite nth_overflow in Id by lia. destruct Id. }
    destruct (U q Hq) as (w & c & En & Uw).
    assert (Pr : proper post_action 154 (nth (Z.to_nat q) ds [])) by (rewrite Forall_forall in Wd; apply Wd, nth_In; lia).
    rewrite En in Id, Pr. cbn [List.concat app] in Id. rewrite app_nil_r in Id. apply in_app_iff in Id.
    unfold unmarked in Uw. rewrite Forall_forall in Uw. destruct Id as [Id|Id]; [rewrite (Uw d Id) in X; discriminate X|].
    destruct Pr as (w' & ri & c' & Ec & _ & _ & _ & _ & C). injection Ec as <- <- <-. rewrite Forall_forall in C. destruct (C d Id) as (Cd & j & Aj & Bj).
    destruct act_facts as (_ & _ & _ & _ & _ & A3). rewrite (A3 d _ _ Cd A Aj). lia.
Qed.
Print Assumptions C113_never_partial.

(** ** Rounds that end with a win *)
Definition result_of (who from : string) : event := MkEvent "AGARI" [("who", who); ("fromWho", from); ("sc", "250,0,250,0,250,0,250,0")]%string.
Definition ron_events : list event := [MkEvent "U112" []; MkEvent "E112" []; MkEvent "V0" []; MkEvent "F0" []].
Definition ron_round : list event := two_waits :: ron_events ++ [result_of "1" "2"].
Definition tsumo_events : list event := [MkEvent "U0" []].
Definition tsumo_round : list event := two_waits :: tsumo_events ++ [result_of "1" "1"].

(** Player 1 wins on the 1m of player 2; the sample that offers the ron says to let it pass. *)
Theorem C113_refuted_ron : forall a, exists L go e0 rest half tokens pls e t r w x, honest L /\ process_round L go (e0 :: rest ++ [e]) = Ok (half, tokens) /\
  plays_of_round (e0 :: rest ++ [e]) (pls ++ [PlDiscard w x]) /\ won_by e 1 w /\ build_tensors a half tokens = Ok t /\
  t_post t = [r] /\ misses_win r 1 /\ r_label r = 0.
Proof.
  intros a. destruct (sample_round_ok two_wins a ron_round (fun _ _ t => match t_post t with
    | [r] => (r_player r =? 1) && (nth 1 (r_mask r) 0 =? 1) && (r_label r =? 0) | _ => false end)) as (h & tk & t & E1 & E2 & E3); [destruct a; vm_compute; reflexivity|].
  destruct (t_post t) as [|r [|]] eqn:Et; try discriminate E3. apply andb_prop in E3 as [E3 E6]. apply andb_prop in E3 as [E4 E5]. apply Z.eqb_eq in E4, E5, E6.
  exists two_wins, 169, two_waits, ron_events, h, tk, [PlDraw 1 112; PlDiscard 1 112; PlDraw 2 0], (result_of "1" "2"), t, r, 2, 0.
  split; [apply two_wins_honest|]. split; [exact E1|].
  split; [exact (plays_check two_waits ron_events [result_of "1" "2"] eq_refl eq_refl eq_refl)|].
  split; [repeat split|]. split; [exact E2|]. split; [exact Et|]. split; [|exact E6].
  split; [exact E4|]. split; [split; [unfold WIN; lia|exact E5]|]. rewrite E6. discriminate.
Qed.
Print Assumptions C113_refuted_ron.

(** Player 1 draws 1m and wins; the sample that offers the win says to declare riichi. *)
Theorem C113_refuted_tsumo : forall a, exists L go e0 rest half tokens pls e t r x, honest L /\ process_round L go (e0 :: rest ++ [e]) = Ok (half, tokens) /\
  plays_of_round (e0 :: rest ++ [e]) (pls ++ [PlDraw 1 x]) /\ won_by e 1 1 /\ build_tensors a half tokens = Ok t /\
  t_during t = [r] /\ misses_win r 1 /\ r_label r = 2.
Proof.
  intros a. destruct (sample_round_ok two_wins a tsumo_round (fun _ _ t => match t_during t with
    | [r] => (r_player r =? 1) && (nth 1 (r_mask r) 0 =? 1) && (r_label r =? 2) | _ => false end)) as (h & tk & t & E1 & E2 & E3); [destruct a; vm_compute; reflexivity|].
  destruct (t_during t) as [|r [|]] eqn:Et; try discriminate E3. apply andb_prop in E3 as [E3 E6]. apply andb_prop in E3 as [E4 E5]. apply Z.eqb_eq in E4, E5, E6.
  exists two_wins, 169, two_waits, tsumo_events, h, tk, [], (result_of "1" "1"), t, r, 0.
  split; [apply two_wins_honest|]. split; [exact E1|].
  split; [exact (plays_check two_waits tsumo_events [result_of "1" "1"] eq_refl eq_refl eq_refl)|].
  split; [repeat split|]. split; [exact E2|]. split; [exact Et|]. split; [|exact E6].
  split; [exact E4|]. split; [split; [unfold WIN; lia|exact E5]|]. rewrite E6. discriminate.
Qed.
Print Assumptions C113_refuted_tsumo.
