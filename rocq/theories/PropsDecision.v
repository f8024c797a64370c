(** C12-C18: the call candidates of decision_mask.  Statements only; proofs are in
    DecisionLemmas.v and DecisionExact.v. *)
From Coq Require Import ZArith List Bool Lia.
From Verif Require Import Base Naki Decision SpecMeld SpecDecision DecisionLemmas DecisionExact.
Import ListNotations.
Open Scope Z_scope.

(** A 37-wide hand vector from a list of indices (34-36 are the red markers), and
    four hands of which only player [p]'s is non-empty: used by the examples. *)
Definition hv (is_ : list nat) : list Z := fold_left (fun v i => vadd v i 1) is_ (repeat 0 37).
Definition only (p : nat) (h : list Z) : list (list Z) := upd (repeat (repeat 0 37) 4) p (fun _ => h).

(** C12.  In [(p + from_who) mod 4 = player] the source seat of the call is the discarder. *)
Theorem C12_right_players : forall player hands t is_red ds,
  length hands = 4%nat -> 0 <= player < 4 -> 0 <= t < 34 ->
  decision_mask player hands t is_red = Ok ds ->
  offered ds player = [] /\
  forall p d, 0 <= p < 4 -> In d (offered ds p) ->
    exists nk k, d = NakiDecision p nk false /\ spec_kind (nk_code nk) = Some k /\
      (k = Chi \/ k = Pon \/ k = Minkan) /\
      (p + from_who (nk_code nk)) mod 4 = player /\
      (k = Chi -> p = (player + 1) mod 4).
Proof. exact right_players. Qed.
Print Assumptions C12_right_players.
Example C12_example : exists ds, decision_mask 3 (only 0 (hv [10; 11; 12; 12]%nat)) 12 false = Ok ds /\
  map (fun d => match d with NakiDecision _ nk _ => nk_code nk | _ => 0 end) (offered ds 0) = [26799; 18443].
Proof. eexists. split; vm_compute; reflexivity. Qed.

(** C13.  True except for one corner: the discarded tile is a four or a six, the
    candidate is the run with that tile in the middle, and the player holds the red
    five of the suit. *)
Theorem C13_playable_partial : forall player hands t is_red ds p d nk,
  length hands = 4%nat -> 0 <= player < 4 -> 0 <= t < 34 -> 0 <= p < 4 ->
  (forall x, 0 <= hget (hand_of hands p) x) ->
  decision_mask player hands t is_red = Ok ds -> In d (offered ds p) -> d = NakiDecision p nk false ->
  ~ (holds_red (hand_of hands p) t /\ t < 27 /\ (t mod 9 = 3 \/ t mod 9 = 5) /\
     spec_kind (nk_code nk) = Some Chi /\ p_number (pattern_chi (nk_code nk)) = t mod 9 - 1) ->
  exists ex a, get_exposed (nk_code nk) = Ok (ex, Some a) /\ tile_type a = t /\
    holds_all (hand_of hands p) (map tile_type ex).
Proof. exact playable. Qed.
Print Assumptions C13_playable_partial.
Example C13_example : exists ds nk, decision_mask 3 (only 0 (hv [10; 11]%nat)) 12 false = Ok ds /\
  offered ds 0 = [NakiDecision 0 nk false] /\ get_exposed (nk_code nk) = Ok ([41; 45], Some 49).
Proof. exists [[NakiDecision 0 (raw_naki 26799) false]; []; []; []], (raw_naki 26799). repeat split; (vm_compute; reflexivity). Qed.
(** In the corner the candidate claims a tile that was not discarded: 4m is
    discarded, the next player holds 3m and the red 5m, and the candidate claims a 3m. *)
Theorem C13_refuted : exists player hands t ds p nk ex a,
  decision_mask player hands t false = Ok ds /\ In (NakiDecision p nk false) (offered ds p) /\
  get_exposed (nk_code nk) = Ok (ex, Some a) /\ t = 3 /\ tile_type a = 2 /\
  (forall x, 0 <= hget (hand_of hands p) x) /\ ~ holds_all (hand_of hands p) (map tile_type ex).
Proof.
  exists 3, (only 0 (hv [2; 4; 34]%nat)), 3, [[NakiDecision 0 (raw_naki 6191) false]; []; []; []], 0, (raw_naki 6191), [13; 16], 9.
  split; [vm_compute; reflexivity|]. split; [left; reflexivity|]. split; [vm_compute; reflexivity|].
  split; [reflexivity|]. split; [reflexivity|]. split.
  - apply hget_nonneg. vm_compute. reflexivity.
  - intros H. specialize (H 3). vm_compute in H. now apply H.
Qed.
Print Assumptions C13_refuted.

(** C14.  [t] is the [w]-th tile of the run [n, n+1, n+2] of suit [s]. *)
Theorem C14_chi_complete_partial : forall player hands s n w is_red ds,
  length hands = 4%nat -> 0 <= player < 4 -> 0 <= s < 3 -> 0 <= n < 7 -> 0 <= w < 3 ->
  let p := (player + 1) mod 4 in
  let h := hand_of hands p in
  let t := 9 * s + n + w in
  decision_mask player hands t is_red = Ok ds ->
  (forall i, 0 <= i < 3 -> i <> w -> 0 < hget h (9 * s + n + i)) ->
  ~ (w = 1 /\ (n + w = 3 \/ n + w = 5) /\ 0 < hget h (34 + s)) ->
  exists nk, In (NakiDecision p nk false) (offered ds p) /\
    spec_kind (nk_code nk) = Some Chi /\
    p_color (pattern_chi (nk_code nk)) = s /\ p_number (pattern_chi (nk_code nk)) = n /\
    p_which (pattern_chi (nk_code nk)) = w.
Proof. exact chi_complete. Qed.
Print Assumptions C14_chi_complete_partial.
Example C14_example : exists ds, decision_mask 1 (only 2 (hv [20; 21; 22; 36]%nat)) 20 false = Ok ds /\ length (offered ds 2) = 1%nat.
Proof. eexists. split; vm_compute; reflexivity. Qed.
(** Exactly the chi of [chi_rule] (SpecDecision.v) are offered, no others. *)
Theorem C14_chi_exact : forall player hands t is_red ds, length hands = 4%nat -> 0 <= player < 4 -> 0 <= t < 27 ->
  let p := (player + 1) mod 4 in let h := hand_of hands p in
  (forall x, 0 <= hget h x) -> decision_mask player hands t is_red = Ok ds -> forall s n w red,
  (exists nk, In (NakiDecision p nk false) (offered ds p) /\ chi_of (nk_code nk) s n w red) <-> s = t / 9 /\ chi_rule h t is_red n w red.
Proof. exact chi_exact. Qed.
Print Assumptions C14_chi_exact.
(** 4m is discarded, the next player holds 5m 6m: the run 4-5-6 with the first tile claimed *)
Example C14_rule_example : chi_rule (hv [4; 5]%nat) 3 false 3 0 false.
Proof.
  change 3 with (3 mod 9 - 0) at 2. apply cr_black.
  - split; [lia|]. split; [vm_compute; split; congruence|]. intros i I J. assert (C : i = 1 \/ i = 2) by lia. destruct C as [-> | ->]; vm_compute; reflexivity.
  - exists 1. vm_compute. repeat split; congruence.
  - unfold holds_red. vm_compute. discriminate.
Qed.
(** The missing corner: 4m is discarded, the next player holds 3m and the red 5m;
    no candidate claims the middle of a run. *)
Theorem C14_refuted : exists ds,
  decision_mask 3 (only 0 (hv [2; 4; 34]%nat)) 3 false = Ok ds /\
  forall p nk, In (NakiDecision p nk false) (offered ds 0) -> p_which (pattern_chi (nk_code nk)) <> 1.
Proof.
  exists [[NakiDecision 0 (raw_naki 6191) false]; []; []; []]. split; [vm_compute; reflexivity|].
  intros p nk [H|[]]. injection H as <- <-. vm_compute. discriminate.
Qed.
Print Assumptions C14_refuted.

(** C15: the exact rule. *)
Theorem C15_pon_minkan_exact : forall player hands t is_red ds p,
  length hands = 4%nat -> 0 <= player < 4 -> 0 <= t < 34 -> 0 <= p < 4 -> p <> player ->
  decision_mask player hands t is_red = Ok ds ->
  (offers_kind Pon ds p <->
     hget (hand_of hands p) t = 2 \/
     (hget (hand_of hands p) t = 3 /\ five_type t /\ 0 < hget (hand_of hands p) (34 + t / 9))) /\
  (offers_kind Minkan ds p <-> hget (hand_of hands p) t = 3).
Proof. exact pon_minkan_exact. Qed.
Print Assumptions C15_pon_minkan_exact.
Example C15_example : exists ds, decision_mask 1 (only 0 (hv [30; 30]%nat)) 30 false = Ok ds /\ offers_kind Pon ds 0.
Proof.
  eexists. split; [vm_compute; reflexivity|]. exists (raw_naki 46089). split; [left; reflexivity|reflexivity].
Qed.
(** Whoever holds two or three copies may call pon, but with three copies of a
    non-five only the open kan is offered. *)
Theorem C15_refuted : exists player hands t ds p,
  decision_mask player hands t false = Ok ds /\ 2 <= hget (hand_of hands p) t /\ p <> player /\ ~ offers_kind Pon ds p.
Proof.
  exists 1, (only 0 (hv [30; 30; 30]%nat)), 30.
  assert (E : exists ds, decision_mask 1 (only 0 (hv [30; 30; 30]%nat)) 30 false = Ok ds)
    by (eexists; vm_compute; reflexivity).
  destruct E as [ds E]. exists ds, 0. split; [exact E|]. split; [vm_compute; discriminate|]. split; [discriminate|].
  destruct (pon_minkan_exact 1 (only 0 (hv [30; 30; 30]%nat)) 30 false ds 0) as [P _];
    [reflexivity|lia|lia|lia|discriminate|exact E|].
  rewrite P. intros [H|(_ & [H|[H|H]] & _)]; vm_compute in H; discriminate.
Qed.
Print Assumptions C15_refuted.

(** C16.  Chi and pon candidates with a red five are real ... *)
Theorem C16_red_real_partial : forall player hands t is_red ds p nk ex a,
  length hands = 4%nat -> 0 <= player < 4 -> 0 <= t < 34 -> 0 <= p < 4 ->
  decision_mask player hands t is_red = Ok ds -> In (NakiDecision p nk false) (offered ds p) ->
  spec_kind (nk_code nk) <> Some Minkan ->
  get_exposed (nk_code nk) = Ok (ex, a) -> has_red_five (all_tiles ex a) = true ->
  (is_red = true /\ five_type t) \/ 0 < hget (hand_of hands p) (34 + t / 9).
Proof. exact red_real. Qed.
Print Assumptions C16_red_real_partial.
Example C16_example : exists ds nk ex a, decision_mask 3 (only 0 (hv [3; 4; 34]%nat)) 2 false = Ok ds /\
  offered ds 0 = [NakiDecision 0 nk false] /\ get_exposed (nk_code nk) = Ok (ex, a) /\ has_red_five (all_tiles ex a) = true.
Proof.
  exists [[NakiDecision 0 (raw_naki 6191) false]; []; []; []], (raw_naki 6191), [13; 16], (Some 9).
  repeat split; (vm_compute; reflexivity).
Qed.
(** ... but an open-kan candidate for fives claims to expose the red five from the
    hand of a player who does not hold it, ... *)
Theorem C16_refuted_minkan : exists player hands t ds p nk ex a,
  decision_mask player hands t true = Ok ds /\ In (NakiDecision p nk false) (offered ds p) /\
  get_exposed (nk_code nk) = Ok (ex, Some a) /\ has_red_five ex = true /\ red_fiveb a = false /\
  t = 4 /\ hget (hand_of hands p) 34 = 0.
Proof.
  exists 3, (only 0 (hv [4; 4; 4]%nat)), 4, [[NakiDecision 0 (raw_naki 4355) false]; []; []; []], 0, (raw_naki 4355), [16; 18; 19], 17.
  split; [vm_compute; reflexivity|]. split; [left; reflexivity|]. repeat split; (vm_compute; reflexivity).
Qed.
Print Assumptions C16_refuted_minkan.
(** ... and the test for a black five looks at the number of copies of the
    discarded tile instead of the five: this is the rule that is applied, ... *)
Theorem C16_black_five_rule : forall player hands t is_red ds p nk ex a x,
  length hands = 4%nat -> 0 <= player < 4 -> 0 <= t < 34 -> 0 <= p < 4 ->
  decision_mask player hands t is_red = Ok ds -> In (NakiDecision p nk false) (offered ds p) ->
  spec_kind (nk_code nk) = Some Chi -> get_exposed (nk_code nk) = Ok (ex, a) ->
  In x ex -> five_type (tile_type x) -> has_red_five (all_tiles ex a) = false ->
  holds_red (hand_of hands p) t -> 2 <= hget (hand_of hands p) t.
Proof. exact black_rule. Qed.
Print Assumptions C16_black_five_rule.
(** ... so with 3m 3m 4m and only the red 5m in hand, a chi with a black 5m is offered. *)
Theorem C16_refuted_black_five : exists player hands t ds p nk ex a,
  decision_mask player hands t false = Ok ds /\ In (NakiDecision p nk false) (offered ds p) /\
  get_exposed (nk_code nk) = Ok (ex, Some a) /\ In 4 (map tile_type ex) /\ has_red_five ex = false /\
  hget (hand_of hands p) 4 = 1 /\ hget (hand_of hands p) 34 = 1.
Proof.
  exists 3, (only 0 (hv [2; 2; 3; 4; 34]%nat)), 2.
  exists [[NakiDecision 0 (raw_naki 6191) false; NakiDecision 0 (raw_naki 6319) false; NakiDecision 0 (raw_naki 3083) false]; []; []; []],
    0, (raw_naki 6319), [13; 17], 9.
  split; [vm_compute; reflexivity|]. split; [right; left; reflexivity|]. repeat split; try (vm_compute; reflexivity).
  right; left; reflexivity.
Qed.
Print Assumptions C16_refuted_black_five.

(** C17.  Exactly which logged chi of a player who holds the tiles get their label: all but
    those in which a five comes from the hand, the red five is held, and the claimed tile
    is in the middle or a black five is used with fewer than two copies of the claimed
    tile in the hand. *)
Theorem C17_chi_label_exact : forall player hands c nk t is_red ds ex a s n w red,
  length hands = 4%nat -> 0 <= player < 4 -> 0 <= t < 34 ->
  let p := (player + 1) mod 4 in
  let h := hand_of hands p in
  decision_mask player hands t is_red = Ok ds ->
  mk_naki c = Ok nk -> in_range c -> unused_clear c -> from_who c = 3 -> chi_of c s n w red ->
  get_exposed c = Ok (ex, Some a) -> tile_type a = t -> red_fiveb a = is_red ->
  (forall x, 0 <= hget h x) -> holds_all h (map tile_type ex) -> (has_red_five ex = true -> holds_red h t) ->
  ((exists nk', In (NakiDecision p nk' false) (offered ds p) /\ nk_conv nk' = nk_conv nk) <->
   ~ (five_beside t w /\ holds_red h t /\ (w = 1 \/ (has_red_five ex = false /\ hget h t < 2)))).
Proof. exact chi_label_exact. Qed.
Print Assumptions C17_chi_label_exact.
(** 3m is called with 4m and the red 5m *)
Example C17_red_example : exists ds nk, decision_mask 3 (only 0 (hv [3; 4; 34]%nat)) 2 false = Ok ds /\
  mk_naki 6191 = Ok nk /\ from_who 6191 = 3 /\ chi_of 6191 0 2 0 true /\ get_exposed 6191 = Ok ([13; 16], Some 9) /\
  holds_red (hand_of (only 0 (hv [3; 4; 34]%nat)) 0) 2 /\ map nk_conv (map (fun d => match d with NakiDecision _ x _ => x | _ => raw_naki 0 end) (offered ds 0)) = [nk_conv nk].
Proof.
  exists [[NakiDecision 0 (raw_naki 6191) false]; []; []; []], (MkNaki 6191 6191). repeat split; try (vm_compute; reflexivity); try lia.
  exists [13; 16], 9. repeat split; vm_compute; reflexivity.
Qed.
Example C17_example : exists ds nk nk', decision_mask 3 (only 0 (hv [10; 11]%nat)) 12 false = Ok ds /\
  mk_naki 26839 = Ok nk /\ get_exposed 26839 = Ok ([42; 46], Some 49) /\
  offered ds 0 = [NakiDecision 0 nk' false] /\ nk_conv nk' = nk_conv nk.
Proof.
  exists [[NakiDecision 0 (raw_naki 26799) false]; []; []; []], (MkNaki 26839 26799), (raw_naki 26799).
  repeat split; (vm_compute; reflexivity).
Qed.
(** A logged pon of a non-five gets its label only if the caller holds exactly two
    copies and the claimed copy is the lowest of the three. *)
Theorem C17_pon_label_exact : forall player hands c nk t is_red ds ex a p,
  length hands = 4%nat -> 0 <= player < 4 -> 0 <= t < 34 -> 0 <= p < 4 -> p <> player ->
  decision_mask player hands t is_red = Ok ds ->
  mk_naki c = Ok nk -> spec_kind c = Some Pon -> in_range c -> unused_clear c ->
  from_who c = (player - p) mod 4 ->
  get_exposed c = Ok (ex, Some a) -> tile_type a = t -> ~ five_type t ->
  ((exists nk', In (NakiDecision p nk' false) (offered ds p) /\ nk_conv nk' = nk_conv nk) <->
   (hget (hand_of hands p) t = 2 /\ field c 9 7 mod 3 = 0)).
Proof. exact pon_label. Qed.
Print Assumptions C17_pon_label_exact.
(** A logged pon of fives gets its label only if the red five comes from the hand and it is
    one of exactly two copies held, or the red five is not in the pon, the claimed copy is
    the lowest of the three and two black fives are held. *)
Theorem C17_pon_five_label_exact : forall player hands c nk t is_red ds ex a p,
  length hands = 4%nat -> 0 <= player < 4 -> 0 <= p < 4 -> p <> player -> five_type t ->
  decision_mask player hands t is_red = Ok ds ->
  mk_naki c = Ok nk -> spec_kind c = Some Pon -> in_range c -> unused_clear c -> from_who c = (player - p) mod 4 ->
  get_exposed c = Ok (ex, Some a) -> tile_type a = t -> red_fiveb a = is_red ->
  let h := hand_of hands p in
  ((exists nk', In (NakiDecision p nk' false) (offered ds p) /\ nk_conv nk' = nk_conv nk) <->
   (has_red_five ex = true /\ holds_red h t /\ hget h t = 2) \/
   (has_red_five (a :: ex) = false /\ field c 9 7 mod 3 = 0 /\ ((holds_red h t /\ hget h t = 3) \/ (~ holds_red h t /\ hget h t = 2)))).
Proof. exact pon_five_label. Qed.
Print Assumptions C17_pon_five_label_exact.
(** A logged open kan never gets its label. *)
Theorem C17_minkan_never_labelled : forall player hands c nk t is_red ds ex a p nk',
  length hands = 4%nat -> 0 <= player < 4 -> 0 <= t < 34 -> 0 <= p < 4 ->
  decision_mask player hands t is_red = Ok ds ->
  mk_naki c = Ok nk -> spec_kind c = Some Minkan -> in_range c -> 0 <= c < 65536 ->
  get_exposed c = Ok (ex, Some a) -> tile_type a = t -> red_fiveb a = is_red ->
  In (NakiDecision p nk' false) (offered ds p) -> nk_conv nk' <> nk_conv nk.
Proof. exact minkan_never_labelled. Qed.
Print Assumptions C17_minkan_never_labelled.
(** Hence C17 is false: the west player calls pon of 4z with two copies in hand and
    no candidate matches. *)
Theorem C17_refuted : exists player hands c nk t ds p ex a,
  decision_mask player hands t false = Ok ds /\ mk_naki c = Ok nk /\ spec_kind c = Some Pon /\
  get_exposed c = Ok (ex, Some a) /\ tile_type a = t /\ (p + from_who c) mod 4 = player /\
  holds_all (hand_of hands p) (map tile_type ex) /\
  forall nk', In (NakiDecision p nk' false) (offered ds p) -> nk_conv nk' <> nk_conv nk.
Proof.
  exists 1, (only 0 (hv [30; 30]%nat)), 46601, (raw_naki 46601), 30.
  exists [[NakiDecision 0 (raw_naki 46089) false]; []; []; []], 0, [121; 123], 122.
  split; [vm_compute; reflexivity|]. split; [vm_compute; reflexivity|]. split; [vm_compute; reflexivity|].
  split; [vm_compute; reflexivity|]. split; [vm_compute; reflexivity|]. split; [vm_compute; reflexivity|]. split.
  - apply holds_pair; [|vm_compute; discriminate].
    apply hget_nonneg. vm_compute. reflexivity.
  - intros nk' [H|[]]. injection H as <-. vm_compute. discriminate.
Qed.
Print Assumptions C17_refuted.

(** C18 *)
Theorem C18_total : forall player hands t is_red,
  length hands = 4%nat -> 0 <= player < 4 -> 0 <= t < 34 ->
  exists ds, decision_mask player hands t is_red = Ok ds /\ length ds = 4%nat.
Proof.
  intros player hands t is_red Hl Hp Ht.
  destruct (mask_total player hands t is_red Hl Hp Ht) as (ds & E & L & _). exists ds. now split.
Qed.
Print Assumptions C18_total.
Example C18_example : exists ds, decision_mask 0 (repeat (hv [4; 4; 4; 13; 34]%nat) 4) 4 true = Ok ds /\
  map (@length decision) ds = [0; 2; 2; 2]%nat.
Proof. eexists. split; vm_compute; reflexivity. Qed.
