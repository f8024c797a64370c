(** C139: which outputs of the heads for the player's own turn and for discards are ever allowed and ever targets. *)
From Coq Require Import ZArith List Bool String Ascii Reals Lia PeanoNat.
From Verif Require Import Base VecLemmas Constants Process Tensor SpecTensor TensorLemmas TensorRound PropsTensor Network SpecNetwork PropsNetwork RoundExamples.
Import ListNotations.
Open Scope Z_scope.

(** ** Rounds in which a closed or an added kan of type [k] is offered *)
Definition digit (n : Z) : ascii := ascii_of_nat (48 + Z.to_nat n).
Fixpoint number_from (fuel : nat) (n : Z) (r : string) : string :=
  match fuel with O => r | S f => let r' := String (digit (n mod 10)) r in if n <? 10 then r' else number_from f (n / 10) r' end.
Definition number (n : Z) : string := number_from 6 n EmptyString.
Definition listed (l : list Z) : string := String.concat "," (map number l).
Definition the_deal (ind : Z) (h0 h1 h2 h3 : list Z) : event :=
  MkEvent "INIT" [("seed", "0,0,1,2,3," ++ number ind); ("ten","250,250,250,250"); ("oya","0"); ("hai0", listed h0); ("hai1", listed h1); ("hai2", listed h2); ("hai3", listed h3)]%string.
Definition plain (p : string) (t : Z) : event := MkEvent (p ++ number t) [].
Definition exhausted : event := MkEvent "RYUUKYOKU" [("sc","0,0,0,0")]%string.
Definition tiles_but (l : list Z) : list Z := filter (fun t => negb (existsb (Z.eqb t) l)) (map Z.of_nat (seq 0 136)).
Definition part (n m : nat) (l : list Z) : list Z := firstn m (skipn n l).
(** The dealer is dealt three tiles of type [k], draws the fourth and declares the kan or discards [t]. *)
Definition closed_kan (call : bool) (k t : Z) : list event :=
  let u := tiles_but [4 * k; 4 * k + 1; 4 * k + 2; 4 * k + 3] in
  [the_deal (nth 100 u 0) ([4 * k; 4 * k + 1; 4 * k + 2] ++ part 0 10 u) (part 10 13 u) (part 23 13 u) (part 36 13 u);
   plain "T" (4 * k + 3)] ++ (if call then [MkEvent "N" [("who","0"); ("m", number (1024 * k)%Z)]%string; plain "T" (nth 60 u 0); plain "D" (nth 60 u 0)] else [plain "D" t]) ++ [exhausted].
(** The dealer draws and discards a tile of type [k], player 1 calls pon and holds the tile with the number [k]
    at the next draw. *)
Definition added_kan (k : Z) : list event :=
  let u := tiles_but [4 * k + 1; 4 * k + 2; 4 * k + 3; k] in
  let d i := nth i u 0 in
  [the_deal (d 100%nat) (part 0 13 u) ([4 * k + 1; 4 * k + 2; k] ++ part 13 10 u) (part 23 13 u) (part 36 13 u);
   plain "T" (4 * k + 3); plain "D" (4 * k + 3); MkEvent "N" [("who","1"); ("m", number ((3 * k + 2) * 512 + 11)%Z)]%string; plain "E" (d 13%nat); plain "V" (d 60%nat); plain "F" (d 60%nat);
   plain "W" (d 61%nat); plain "G" (d 61%nat); plain "T" (d 62%nat); plain "D" (d 62%nat); plain "U" (d 63%nat); plain "E" (d 63%nat); exhausted].

(** Some sample for decision [h] of the round passes the test. *)
Definition some_row (L : libs) (a : agent) (h : which) (evs : list event) (chk : sample -> bool) : bool :=
  match sample_round L a evs with Some (_, _, t) => existsb chk (rows_of h t) | None => false end.
Lemma some_row_ok L a h evs chk : some_row L a h evs chk = true -> exists r, from_round a h r /\ chk r = true.
Proof.
  intros H. destruct (sample_round_ok L a evs (fun _ _ t => existsb chk (rows_of h t))) as (hf & tk & t & E1 & E2 & E3); [exact H|]. apply existsb_exists in E3 as (r & Ir & C).
  exists r. split; [|exact C]. exists L, 169, evs, hf, tk, t. auto.
Qed.
Definition allows (i : nat) (r : sample) : bool := nth i (r_mask r) 0 =? 1.
Definition wants (i : nat) (r : sample) : bool := allows i r && (r_label r =? Z.of_nat i).
Definition winning : libs := MkLibs (fun _ => Ok true) (fun _ => Ok 0).
Definition own_round (i : nat) : list event := let k := Z.of_nat i - 3 in if k <? 0 then closed_kan false 0 3 else if k <? 34 then closed_kan false k (4 * k + 3) else added_kan (k - 34).
Definition right_round (i : nat) : list event := let k := Z.of_nat i - 3 in if k <? 0 then closed_kan false 0 3 else closed_kan true k 0.
Definition discard_round (i : nat) : list event := let k := Z.of_nat i in if k <? 34 then closed_kan false k (4 * k + 3) else let r := nth (i - 34) [4; 13; 22] 0 in closed_kan false r (4 * r + 3).
Definition all_agents : list agent := [TF; CONV; LARGE; ORDERED].
Lemma in_agents a : In a all_agents.
Proof. destruct a; cbn; tauto. Qed.
Lemma swept (f : agent -> nat -> bool) n m : forallb (fun a => forallb (f a) (seq n m)) all_agents = true -> forall a i, (n <= i < n + m)%nat -> f a i = true.
Proof. intros H a i Hi. rewrite forallb_forall in H. specialize (H a (in_agents a)). rewrite forallb_forall in H. apply H, in_seq. exact Hi. Qed.

(** Each of the 71 outputs of the own-turn head is allowed in a sample of some round, for every model. *)
Lemma own_all : forallb (fun a => forallb (fun i => some_row winning a During (own_round i) (allows i)) (seq 0 71)) all_agents = true.
Proof. vm_compute. reflexivity. Qed.
Theorem C139_own : forall a i, (i < 71)%nat -> exists r, from_round a During r /\ nth i (r_mask r) 0 = 1.
Proof.
  intros a i Hi. destruct (some_row_ok _ _ _ _ _ (swept _ _ _ own_all a i ltac:(lia))) as (r & F & C). exists r. split; [exact F|]. now apply Z.eqb_eq.
Qed.
Print Assumptions C139_own.
(** Riichi and each closed kan are the allowed target of a sample of some round.  No other output of this head is
    ever a target (C130_targets_partial). *)
Lemma right_all : forallb (fun a => forallb (fun i => some_row winning a During (right_round i) (wants i)) (seq 2 35)) all_agents = true.
Proof. vm_compute. reflexivity. Qed.
Theorem C139_targets : forall a i, (2 <= i <= 36)%nat -> exists r, from_round a During r /\ nth i (r_mask r) 0 = 1 /\ r_label r = Z.of_nat i.
Proof.
  intros a i Hi. destruct (some_row_ok _ _ _ _ _ (swept _ _ _ right_all a i ltac:(lia))) as (r & F & C). exists r. split; [exact F|]. apply andb_prop in C as [C1 C2]. split; now apply Z.eqb_eq.
Qed.
Print Assumptions C139_targets.
(** Each of the 37 outputs of the discard head is allowed in a sample of some round, and the outputs of the 34 tile
    types are allowed targets. *)
Lemma discard_all : forallb (fun a => forallb (fun i => some_row winning a Discard (discard_round i) (allows i)) (seq 0 37)) all_agents = true.
Proof. vm_compute. reflexivity. Qed.
Lemma discard_right : forallb (fun a => forallb (fun i => some_row winning a Discard (discard_round i) (wants i)) (seq 0 34)) all_agents = true.
Proof. vm_compute. reflexivity. Qed.
Theorem C139_discard_partial : forall a i, (i < 37)%nat -> (exists r, from_round a Discard r /\ nth i (r_mask r) 0 = 1) /\
  ((i < 34)%nat -> exists r, from_round a Discard r /\ nth i (r_mask r) 0 = 1 /\ r_label r = Z.of_nat i).
Proof.
  intros a i Hi. split.
  - destruct (some_row_ok _ _ _ _ _ (swept _ _ _ discard_all a i ltac:(lia))) as (r & F & C). exists r. split; [exact F|]. now apply Z.eqb_eq.
  - intros Hi'. destruct (some_row_ok _ _ _ _ _ (swept _ _ _ discard_right a i ltac:(lia))) as (r & F & C). exists r. split; [exact F|]. apply andb_prop in C as [C1 C2]. split; now apply Z.eqb_eq.
Qed.
Print Assumptions C139_discard_partial.
(** The outputs of the red fives are never targets: a discarded red five has the number of its tile type. *)
Lemma idx_small : forallb (fun l => Nat.ltb (hd 0%nat l) 34) TILE2IDX_list = true.
Proof. vm_compute. reflexivity. Qed.
Theorem C139_types_partial : forall a r, from_round a Discard r -> 0 <= r_label r < 34.
Proof.
  intros a r (L & go & evs & half & tokens & t & H & B & I). destruct (formed_rounds _ _ _ _ _ H) as [W X]. destruct (build_ok _ _ _ _ B W X) as (_ & D2 & _). cbn [rows_of] in I.
  assert (G : Forall (fun r => 0 <= r_label r < 34) (t_discard t)).
  { clear I B H. induction D2 as [|h r0 l l' P _ IH]; constructor; [|exact IH]. destruct P as (p & v & tl & i & _ & _ & _ & _ & _ & _ & ti & T & ->).
    unfold tile2idx in T. apply bind_ok in T as (j & _ & T). assert (E : ti = nth j TILE2IDX_list []) by congruence. rewrite E. clear E T. pose proof idx_small as Q. rewrite forallb_forall in Q.
    destruct (nth_in_or_default j TILE2IDX_list []) as [J|J]; [specialize (Q _ J); apply Nat.ltb_lt in Q; revert Q; generalize (hd 0%nat (nth j TILE2IDX_list [])); intros; lia|rewrite J; cbn; lia]. }
  rewrite Forall_forall in G. exact (G r I).
Qed.
Print Assumptions C139_types_partial.
Theorem C139_refuted : forall i, (34 <= i < 37)%nat -> forall a, (exists r, from_round a Discard r /\ nth i (r_mask r) 0 = 1) /\ forall r, from_round a Discard r -> r_label r <> Z.of_nat i.
Proof. intros i Hi a. split; [apply C139_discard_partial; lia|]. intros r F. pose proof (C139_types_partial a r F). lia. Qed.
Print Assumptions C139_refuted.
