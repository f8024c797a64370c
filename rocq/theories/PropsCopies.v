(** C114: which copies of the tiles are in play. *)
From Coq Require Import ZArith List Bool String Lia PeanoNat Permutation.
From Verif Require Import Base Constants Naki Decision GameInfo Agari Process SpecMeld SpecTokens SpecRound SpecTurn SpecTensor Tensor
  RoundExamples RoundLemmas RoundFacts TensorLemmas TensorRound NakiLemmas2 PropsTensor SpecCopies CopiesLemmas.
Import ListNotations.
Open Scope Z_scope.

(** C114: two rounds that differ only in which copies of the tiles are dealt, drawn, discarded
    and turned up have the same tokens and the same samples.  Proved for calls of tiles that keep
    their numbers and, after a pon of tiles of type [k], if the tile with the number [k] keeps its
    number; see [C114_refuted_label] and [C114_refuted_kan] for why. *)
Theorem C114_copies_partial : forall f L go e e' r r' half half' tokens tokens' pls pls' a, renaming f -> blind_to_copies f (l_agari L) ->
  same_deal_but_copies f e e' -> plays_of_round (e :: r) pls -> plays_of_round (e' :: r') pls' -> Forall2 (renamed f) pls pls' ->
  process_round L go (e :: r) = Ok (half, tokens) -> process_round L go (e' :: r') = Ok (half', tokens') ->
  tokens = tokens' /\ build_tensors a half tokens = build_tensors a half' tokens'.
Proof.
  intros f L go e e' r r' half half' tokens tokens' pls pls' a F B D P P' S H H'.
  destruct (round_runs _ _ _ _ _ _ _ H P) as (plays & n & s & R & -> & -> & _). destruct (round_runs _ _ _ _ _ _ _ H' P') as (plays' & n' & s' & R' & -> & -> & _).
  destruct (runs_twin f F L B _ _ _ _ _ _ _ _ _ _ _ R R' D S) as (_ & T). rewrite (tw_tokens _ _ _ T). split; [reflexivity|].
  symmetry. apply (build_twin f F _ _ _ _ T).
Qed.
Print Assumptions C114_copies_partial.

(** ** Renamings *)
Definition swap (a b x : Z) : Z := if x =? a then b else if x =? b then a else x.
Lemma swap_renaming a b : valid_id a -> valid_id b -> a / 4 = b / 4 -> red_fiveb a = false -> red_fiveb b = false -> renaming (swap a b).
Proof.
  intros A B T Ra Rb. unfold swap. constructor.
  - intros x V. destruct (x =? a), (x =? b); assumption.
  - intros x V. destruct (Z.eqb_spec x a) as [->|]; [easy|]. destruct (Z.eqb_spec x b) as [->|]; easy.
  - intros x R. destruct (Z.eqb_spec x a) as [->|]; [exfalso; unfold red_fiveb in Ra; unfold red_five in R; lia|].
    destruct (Z.eqb_spec x b) as [->|]; [exfalso; unfold red_fiveb in Rb; unfold red_five in R; lia|]. reflexivity.
  - intros x y _ _. destruct (Z.eqb_spec x a), (Z.eqb_spec x b), (Z.eqb_spec y a), (Z.eqb_spec y b); subst; try congruence.
Qed.
Lemma renaming_after f g : renaming f -> renaming g -> renaming (fun x => g (f x)).
Proof.
  intros F G. constructor.
  - intros x V. apply (rn_valid g G), (rn_valid f F), V.
  - intros x V. rewrite (rn_type g G) by exact (rn_valid f F x V). exact (rn_type f F x V).
  - intros x R. rewrite (rn_red f F x R). exact (rn_red g G x R).
  - intros x y X Y E. apply (rn_inj f F x y X Y), (rn_inj g G); [apply (rn_valid f F), X|apply (rn_valid f F), Y|exact E].
Qed.

(** A round with other copies of South (tiles 117 and 119) and of Red (132 and 134). *)
Definition other_copies (x : Z) : Z := swap 132 134 (swap 117 119 x).
Lemma other_renaming : renaming other_copies.
Proof. apply (renaming_after (swap 117 119) (swap 132 134)); apply swap_renaming; try reflexivity; unfold valid_id; lia. Qed.
Definition copied_round : list event :=
  match small_round with
  | _ :: r => MkEvent "INIT" [("seed","0,0,1,2,3,134"); ("ten","250,240,250,250"); ("oya","0"); ("hai0","0,1,2,16,20,24,36,40,44,110,112,116,120"); ("hai1","108,109,37,41,45,49,53,57,61,65,69,73,77"); ("hai2","72,76,80,84,88,92,96,100,104,4,8,12,113"); ("hai3","5,9,13,17,21,25,29,33,38,42,46,50,54")]%string
      :: map (fun e => if String.eqb (e_tag e) "V117" then MkEvent "V119" [] else if String.eqb (e_tag e) "F117" then MkEvent "F119" [] else e) r
  | l => l
  end.
Definition plays_between (evs : list event) : list play :=
  flat_map (fun e => match play_of e with Some x => [x] | None => [] end) (removelast (tl evs)).
Lemma between e r x : forallb (fun e => negb (String.eqb (e_tag e) "AGARI" || String.eqb (e_tag e) "RYUUKYOKU")) r = true ->
  String.eqb (e_tag x) "AGARI" || String.eqb (e_tag x) "RYUUKYOKU" = true ->
  forallb (fun e => match play_of e with Some _ => true | None => false end) r = true -> plays_of_round (e :: r ++ [x]) (plays_between (e :: r ++ [x])).
Proof.
  intros A B C. unfold plays_between. cbn [tl]. rewrite removelast_last. apply (plays_check e r [x]); [exact A| |exact C]. cbn [forallb]. now rewrite B.
Qed.

Lemma is_some {A} (o : option A) : match o with Some _ => true | None => false end = true -> exists x, o = Some x.
Proof. destruct o as [x|]; [eauto|discriminate]. Qed.

Lemma small_plays : plays_between small_round =
  [PlDraw 0 3; PlCall 0 768; PlDora 52; PlDraw 0 124; PlDiscard 0 110; PlCall 1 42603; PlDiscard 1 77; PlDraw 2 117; PlReach1 2; PlDiscard 2 117; PlReach2 2; PlDraw 3 125; PlDiscard 3 125;
   PlDraw 0 126; PlDiscard 0 126; PlDraw 1 111; PlCall 1 42611; PlDraw 1 121; PlDora 133; PlDiscard 1 121; PlDraw 2 118; PlDiscard 2 118].
Proof. vm_compute. reflexivity. Qed.
Lemma copied_plays : plays_between copied_round =
  [PlDraw 0 3; PlCall 0 768; PlDora 52; PlDraw 0 124; PlDiscard 0 110; PlCall 1 42603; PlDiscard 1 77; PlDraw 2 119; PlReach1 2; PlDiscard 2 119; PlReach2 2; PlDraw 3 125; PlDiscard 3 125;
   PlDraw 0 126; PlDiscard 0 126; PlDraw 1 111; PlCall 1 42611; PlDraw 1 121; PlDora 133; PlDiscard 1 121; PlDraw 2 118; PlDiscard 2 118].
Proof. vm_compute. reflexivity. Qed.
Lemma copied_deal : same_deal_but_copies other_copies (hd (MkEvent "" []) small_round) (hd (MkEvent "" []) copied_round).
Proof.
  constructor; try (vm_compute; reflexivity).
  - split; [vm_compute; split; congruence|vm_compute; reflexivity].
  - intros p Hp. do 4 (destruct p as [|p]; [vm_compute; apply Permutation_refl|]). lia.
Qed.
Lemma fixed_call w c tiles : in_range c -> shown_by c ++ claimed_by c = tiles -> Forall (fun x => other_copies x = x) tiles -> Forall (fun x => other_copies (x / 4) = x / 4) tiles ->
  renamed other_copies (PlCall w c) (PlCall w c).
Proof.
  intros R <- Fx P. cbn [renamed]. split; [exact R|]. split; [reflexivity|]. split; [exact Fx|]. intros _. apply Forall_app in P. apply P.
Qed.
Lemma renamed_plays : Forall2 (renamed other_copies) (plays_between small_round) (plays_between copied_round).
Proof.
  rewrite small_plays, copied_plays. repeat match goal with |- Forall2 _ (_ :: _) _ => constructor | |- Forall2 _ [] _ => constructor end;
    try (cbn [renamed]; first [split; [unfold valid_id; lia|vm_compute; reflexivity]|reflexivity]).
  - apply (fixed_call 0 768 [0; 1; 2; 3]); [vm_compute; reflexivity|vm_compute; reflexivity| |]; repeat constructor; vm_compute; reflexivity.
  - apply (fixed_call 1 42603 [108; 109; 110]); [vm_compute; split; reflexivity|vm_compute; reflexivity| |]; repeat constructor; vm_compute; reflexivity.
  - apply (fixed_call 1 42611 [111]); [vm_compute; reflexivity|vm_compute; reflexivity| |]; repeat constructor; vm_compute; reflexivity.
Qed.

Example C114_example : same_deal_but_copies other_copies (hd (MkEvent "" []) small_round) (hd (MkEvent "" []) copied_round) /\
  Forall2 (renamed other_copies) (plays_between small_round) (plays_between copied_round) /\
  plays_between small_round <> plays_between copied_round /\
  (exists x, sample_round ex_libs ORDERED small_round = Some x) /\ exists y, sample_round ex_libs ORDERED copied_round = Some y.
Proof.
  split; [exact copied_deal|]. split; [exact renamed_plays|]. split; [rewrite small_plays, copied_plays; discriminate|].
  split; apply is_some; vm_compute; reflexivity.
Qed.

(** ** Which copy is claimed *)
(** Player 1 calls pon of the 9m of player 0: of tile 32 with 33 and 34, or of tile 34 with 33 and 32. *)
Definition deal9 (h0 h1 : string) : event :=
  MkEvent "INIT" [("seed","0,0,0,2,3,132"); ("ten","250,250,250,250"); ("oya","0"); ("hai0",h0); ("hai1",h1);
    ("hai2","109,113,117,121,125,129,38,42,46,50,54,57,61"); ("hai3","110,114,118,122,126,130,39,43,47,51,55,58,62")]%string.
Definition rest9 (d m : string) : list event :=
  [MkEvent "T0" []; MkEvent d []; MkEvent "N" [("who","1"); ("m",m)]; MkEvent "E128" []; MkEvent "V65" []; MkEvent "F65" []; MkEvent "W69" []; MkEvent "G69" [];
   MkEvent "T72" []; MkEvent "D72" []; MkEvent "U77" []; MkEvent "E77" []]%string.
Definition drawn_game : event := MkEvent "RYUUKYOKU" [("sc","0,0,0,0")]%string.
Definition claim_low : list event := deal9 "32,36,40,44,48,53,56,60,64,68,73,76,80" "33,34,8,108,112,116,120,124,128,37,41,45,49" :: rest9 "D32" "12395" ++ [drawn_game].
Definition claim_high : list event := deal9 "34,36,40,44,48,53,56,60,64,68,73,76,80" "32,33,8,108,112,116,120,124,128,37,41,45,49" :: rest9 "D34" "13419" ++ [drawn_game].
(** As the second, with tile 9 instead of tile 8 (both 3m) in the hand of player 1. *)
Definition claim_nine : list event := deal9 "34,36,40,44,48,53,56,60,64,68,73,76,80" "32,33,9,108,112,116,120,124,128,37,41,45,49" :: rest9 "D34" "13419" ++ [drawn_game].


Lemma ex_libs_blind f : blind_to_copies f (l_agari ex_libs).
Proof. unfold blind_to_copies. reflexivity. Qed.
Definition plays9 (x c : Z) : list play :=
  [PlDraw 0 0; PlDiscard 0 x; PlCall 1 c; PlDiscard 1 128; PlDraw 2 65; PlDiscard 2 65; PlDraw 3 69; PlDiscard 3 69; PlDraw 0 72; PlDiscard 0 72; PlDraw 1 77; PlDiscard 1 77].
Lemma plays9_low : plays_of_round claim_low (plays9 32 12395).
Proof. replace (plays9 32 12395) with (plays_between claim_low) by (vm_compute; reflexivity). apply between; vm_compute; reflexivity. Qed.
Lemma plays9_high : plays_of_round claim_high (plays9 34 13419).
Proof. replace (plays9 34 13419) with (plays_between claim_high) by (vm_compute; reflexivity). apply between; vm_compute; reflexivity. Qed.
Lemma plays9_nine : plays_of_round claim_nine (plays9 34 13419).
Proof. replace (plays9 34 13419) with (plays_between claim_nine) by (vm_compute; reflexivity). apply between; vm_compute; reflexivity. Qed.
Lemma same_tiles (l l' : list Z) : nodupb l = true -> nodupb l' = true -> forallb (fun x => existsb (Z.eqb x) l') l = true -> forallb (fun x => existsb (Z.eqb x) l) l' = true -> Permutation l l'.
Proof.
  intros A B C D. apply NoDup_Permutation; [apply nodupb_ok, A|apply nodupb_ok, B|]. intros x. rewrite forallb_forall in C, D. split; intros I.
  - specialize (C x I). apply existsb_exists in C as (y & Iy & E). apply Z.eqb_eq in E. now subst.
  - specialize (D x I). apply existsb_exists in D as (y & Iy & E). apply Z.eqb_eq in E. now subst.
Qed.

(** The two rounds differ in which copy of 9m is discarded and called.  The sample of player 1 has
    the pon as its target in the first and to pass in the second. *)
Theorem C114_refuted_label : forall a, exists f L go e e' r r' half half' tokens tokens' pls pls' t t', renaming f /\ blind_to_copies f (l_agari L) /\
  same_deal_but_copies f e e' /\ plays_of_round (e :: r) pls /\ plays_of_round (e' :: r') pls' /\ Forall2 (renamed_freely f) pls pls' /\
  process_round L go (e :: r) = Ok (half, tokens) /\ process_round L go (e' :: r') = Ok (half', tokens') /\
  build_tensors a half tokens = Ok t /\ build_tensors a half' tokens' = Ok t' /\
  map r_player (t_post t) = [1; 3; 0] /\ map r_label (t_post t) = [91; 0; 0] /\ map r_player (t_post t') = [1; 3; 0] /\ map r_label (t_post t') = [0; 0; 0].
Proof.
  intros a. pose (eqz := list_eq_dec Z.eq_dec). pose (chk l := fun (_ : list (halfturn sview)) (_ : list Z) t => (if eqz (map r_player (t_post t)) [1; 3; 0] then true else false) && (if eqz (map r_label (t_post t)) l then true else false)).
  destruct (sample_round_ok ex_libs a claim_low (chk [91; 0; 0])) as (h & tk & t & E1 & E2 & E3); [destruct a; vm_compute; reflexivity|].
  destruct (sample_round_ok ex_libs a claim_high (chk [0; 0; 0])) as (h' & tk' & t' & E1' & E2' & E3'); [destruct a; vm_compute; reflexivity|].
  unfold chk in E3, E3'. destruct (eqz (map r_player (t_post t)) _) as [P1|]; [|discriminate E3]. destruct (eqz (map r_label (t_post t)) _) as [P2|]; [|discriminate E3].
  destruct (eqz (map r_player (t_post t')) _) as [P1'|]; [|discriminate E3']. destruct (eqz (map r_label (t_post t')) _) as [P2'|]; [|discriminate E3'].
  exists (swap 32 34), ex_libs, 169, (hd drawn_game claim_low), (hd drawn_game claim_high), (tl claim_low), (tl claim_high), h, h', tk, tk', (plays9 32 12395), (plays9 34 13419), t, t'.
  split; [apply swap_renaming; try reflexivity; unfold valid_id; lia|]. split; [apply ex_libs_blind|]. split; [|split; [exact plays9_low|]; split; [exact plays9_high|]; split; [|do 4 (split; [assumption|]); auto]].
  - constructor; try (vm_compute; reflexivity); [split; [vm_compute; split; congruence|vm_compute; reflexivity]|].
    intros p Hp. do 4 (destruct p as [|p]; [apply same_tiles; vm_compute; reflexivity|]). lia.
  - unfold plays9. repeat match goal with |- Forall2 _ (_ :: _) _ => constructor | |- Forall2 _ [] _ => constructor end;
      try (cbn [renamed_freely]; split; [unfold valid_id; lia|vm_compute; reflexivity]).
    exists 13419. split; [reflexivity|]. split; [vm_compute; split; reflexivity|]. split; [vm_compute; split; reflexivity|]. split; [vm_compute; reflexivity|]. split; [vm_compute; reflexivity|].
    split; [apply same_tiles; vm_compute; reflexivity|vm_compute; reflexivity].
Qed.
Print Assumptions C114_refuted_label.

(** The two rounds differ in which copy of 3m player 1 holds after a pon of 9m.  With tile 8 the
    player is asked about an added kan of 9m, with tile 9 there is no decision. *)
Theorem C114_refuted_kan : forall a, exists f L go e e' r r' half half' tokens tokens' pls pls' t t', renaming f /\ blind_to_copies f (l_agari L) /\
  same_deal_but_copies f e e' /\ plays_of_round (e :: r) pls /\ plays_of_round (e' :: r') pls' /\ Forall2 (renamed_freely f) pls pls' /\
  process_round L go (e :: r) = Ok (half, tokens) /\ process_round L go (e' :: r') = Ok (half', tokens') /\
  build_tensors a half tokens = Ok t /\ build_tensors a half' tokens' = Ok t' /\
  map r_player (t_during t) = [0; 2; 3; 0; 1] /\ map r_player (t_during t') = [0; 2; 3; 0].
Proof.
  intros a. pose (eqz := list_eq_dec Z.eq_dec). pose (chk l := fun (_ : list (halfturn sview)) (_ : list Z) t => if eqz (map r_player (t_during t)) l then true else false).
  destruct (sample_round_ok ex_libs a claim_high (chk [0; 2; 3; 0; 1])) as (h & tk & t & E1 & E2 & E3); [destruct a; vm_compute; reflexivity|].
  destruct (sample_round_ok ex_libs a claim_nine (chk [0; 2; 3; 0])) as (h' & tk' & t' & E1' & E2' & E3'); [destruct a; vm_compute; reflexivity|].
  unfold chk in E3, E3'. destruct (eqz (map r_player (t_during t)) _) as [P1|]; [|discriminate E3]. destruct (eqz (map r_player (t_during t')) _) as [P2|]; [|discriminate E3'].
  exists (swap 8 9), ex_libs, 169, (hd drawn_game claim_high), (hd drawn_game claim_nine), (tl claim_high), (tl claim_nine), h, h', tk, tk', (plays9 34 13419), (plays9 34 13419), t, t'.
  split; [apply swap_renaming; try reflexivity; unfold valid_id; lia|]. split; [apply ex_libs_blind|]. split; [|split; [exact plays9_high|]; split; [exact plays9_nine|]; split; [|do 4 (split; [assumption|]); auto]].
  - constructor; try (vm_compute; reflexivity); [split; [vm_compute; split; congruence|vm_compute; reflexivity]|].
    intros p Hp. do 4 (destruct p as [|p]; [apply same_tiles; vm_compute; reflexivity|]). lia.
  - unfold plays9. repeat match goal with |- Forall2 _ (_ :: _) _ => constructor | |- Forall2 _ [] _ => constructor end;
      try (cbn [renamed_freely]; split; [unfold valid_id; lia|vm_compute; reflexivity]).
    exists 13419. split; [reflexivity|]. split; [vm_compute; split; reflexivity|]. split; [vm_compute; split; reflexivity|]. split; [vm_compute; reflexivity|]. split; [vm_compute; reflexivity|].
    split; [apply same_tiles; vm_compute; reflexivity|vm_compute; reflexivity].
Qed.
Print Assumptions C114_refuted_kan.
