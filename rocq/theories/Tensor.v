(** Model of the TransformerTensorProcessor classes of the four agents
    (MahjongAI/agents/transformer.py:525-1140, transformer_conv.py:530-1120,
    transformer_conv_large.py:530-1135, transformer_conv_ordered.py:529-1265).

    A batch of tensors is modelled as the list of its rows (the tensors are
    concatenated along dimension 0, so row i of every tensor belongs to sample i).
    Entries are integers: the code converts them to float32, which represents every
    value occurring here exactly (all are below 2^24). *)
From Coq Require Import ZArith List Bool.
From Verif Require Import Base Constants Naki Decision Process.
Import ListNotations.
Open Scope Z_scope.

Inductive agent := TF | CONV | LARGE | ORDERED.

(** ** State features *)

(** transformer_conv.py:1045-1046: [range(4) < count], one 0/1 entry per copy *)
Definition thermometer (c : Z) : list Z := map (fun k => b2z (k <? c)) (zrange 4).

(** How one count is represented: a single number in transformer.py (1066-1075), four
    entries in the others. *)
Definition planes (a : agent) (c : Z) : list Z := match a with TF => [c] | _ => thermometer c end.

(** np.roll(m, shift=-p, axis=0) *)
Definition roll (m : list (list Z)) (p : nat) : list (list Z) := skipn p m ++ firstn p m.

Record features := MkFeatures { f_x1 : list (list (list Z)); f_x2 : list (list Z); f_x3 : list Z }.

(** transformer.py:1048-1140 and the same method of the others
    (transformer_conv_ordered.py:1177-1213 for the six channels).  torch.stack raises
    RuntimeError when the seven rows of x2 have different lengths. *)
Definition convert_state (a : agent) (v : sview) : res features :=
  let o := sv_obj v in
  ch <- (match a with
         | ORDERED => Ok (roll (so_sutehai o) (so_player o))
         | _ => k <- py_index (List.length (so_sutehai o)) (Z.of_nat (so_player o)) ;; Ok [row (so_sutehai o) k]
         end) ;;
  let x2 := [so_scores o; so_parent_tensor o; so_parent_rounds_remaining o; so_double_reaches o;
             so_reaches o; so_ippatsu o; sv_menzen v] in
  _ <- (if forallb (fun r => Nat.eqb (List.length r) 4) x2 then Ok tt else Err RuntimeError) ;;
  Ok (MkFeatures (map (map (planes a)) (sv_hand v :: sv_pov v :: ch)) x2
                 [so_remaining_tsumo o; so_kyotaku o; so_honba o; so_rounds_remaining o]).

(** ** Rows *)
(** One training sample.  [r_player] is used by transformer_conv_ordered only. *)
Record sample := MkSample {
  r_tokens : list Z; r_state : features; r_mask : list Z; r_label : Z; r_player : Z }.

(** transformer.py:627-632: torch.nn.functional.pad with a negative amount crops *)
Definition pad_tokens (tokens : list Z) : list Z :=
  firstn 150 tokens ++ repeat 0 (150 - List.length tokens).

(** transformer.py:686-699 and its repetitions: the tokens before the decision.
    [encoding_idx] is a length, so never negative. *)
Definition token_row (padded : list Z) (encoding_idx : Z) : res (list Z) :=
  _ <- passert (encoding_idx <? MAX_SEQUENCE_LENGTH) ;;
  Ok (firstn (Z.to_nat encoding_idx) padded ++ repeat 0 (150 - Z.to_nat encoding_idx)).

(** [mask[i] = 1.0] *)
Definition allow (mask : list Z) (i : Z) : res (list Z) :=
  k <- py_index (List.length mask) i ;; Ok (vset mask k 1).

(** The extra range assertion of transformer_conv_ordered.py:937-939, 1092-1094 *)
Definition check_idx (a : agent) (n : nat) (i : Z) : res unit :=
  match a with ORDERED => passert ((0 <=? i) && (i <? Z.of_nat n)) | _ => Ok tt end.

(** transformer.py:700-724 *)
Definition discard_sample (a : agent) (padded : list Z) (player : Z) (v : sview) (tile idx : Z) : res sample :=
  t <- token_row padded idx ;;
  f <- convert_state a v ;;
  ti <- tile2idx tile ;;
  Ok (MkSample t f (map (fun c => Z.min c 1) (sv_hand v)) (Z.of_nat (hd 0%nat ti)) player).

(** ** During turns *)

(** transformer.py:836-845: the candidates of one list *)
Definition during_calls (a : agent) (st : list Z * Z) (d : decision) : res (list Z * Z) :=
  let (mask, y) := st in
  match d with
  | NakiDecision _ nk e =>
      i <- get_during_turn_filter_idx (nk_code nk) ;;
      _ <- check_idx a 71 i ;;
      m <- allow mask i ;;
      Ok (m, if e then i else y)
  | _ => Err AssertionError
  end.

(** transformer.py:820-850: the body of the loop over [enumerate(turn.decisions)].  The
    loop variable [decision_idx] is also the label: it is [k] at the start of every
    round, whatever the previous rounds stored in it. *)
Definition during_type (a : agent) (st : list Z * Z) (kt : nat * list decision) : res (list Z * Z) :=
  let (mask, _) := st in
  let (k, ds) := kt in
  match ds with
  | [] => Ok (mask, Z.of_nat k)
  | d0 :: _ =>
      mask <- allow mask 0 ;;
      if Nat.eqb k DECISION_AGARI_IDX then
        m <- allow mask 1 ;; Ok (m, if d_executed d0 then 1 else Z.of_nat k)
      else if Nat.eqb k DECISION_REACH_IDX then
        m <- allow mask 2 ;; Ok (m, if d_executed d0 then 2 else Z.of_nat k)
      else if Nat.eqb k DECISION_NAKI_IDX then
        foldM (during_calls a) (mask, Z.of_nat k) ds
      else Err ValueError
  end.

Definition enumerate {A} (l : list A) : list (nat * A) := combine (seq 0 (List.length l)) l.

(** transformer.py:794-853 *)
Definition during_sample (a : agent) (padded : list Z) (player : Z) (v : sview) (ds : list (list decision)) (idx : Z) : res (list sample) :=
  if Nat.eqb (List.length (List.concat ds)) 0 then Ok [] else
  t <- token_row padded idx ;;
  f <- convert_state a v ;;
  mask <- allow (repeat 0 71) 0 ;;
  '(mask, y) <- foldM (during_type a) (mask, 0) (enumerate ds) ;;
  Ok [MkSample t f mask y player].

(** ** Post turns *)

Definition post_calls (a : agent) (st : list Z * Z * bool) (d : decision) : res (list Z * Z * bool) :=
  let '(mask, y, x) := st in
  match d with
  | NakiDecision _ nk e =>
      i <- get_post_turn_filter_idx (nk_code nk) ;;
      _ <- check_idx a 154 i ;;
      m <- allow mask i ;;
      Ok (m, if e then i else y, x || e)
  | _ => Err (match a with ORDERED => AssertionError | _ => AttributeError end)
  end.

(** transformer.py:966-995; the triple is (decision_mask, result, contains_executed) *)
Definition post_type (a : agent) (st : list Z * Z * bool) (kt : nat * list decision) : res (list Z * Z * bool) :=
  let '(mask, y, x) := st in
  let (k, ds) := kt in
  match ds with
  | [] => Ok st
  | d0 :: _ =>
      mask <- allow mask 0 ;;
      if Nat.eqb k DECISION_AGARI_IDX then
        m <- allow mask 1 ;; Ok (m, if d_executed d0 then 1 else y, x || d_executed d0)
      else if Nat.eqb k DECISION_REACH_IDX then
        m <- allow mask 2 ;; Ok (m, if d_executed d0 then 2 else y, x || d_executed d0)
      else if Nat.eqb k DECISION_NAKI_IDX then
        foldM (post_calls a) (mask, y, x) ds
      else Err ValueError
  end.

(** transformer.py:953-1003: one player after another, until one has acted *)
Fixpoint post_players (a : agent) (t : list Z) (f : features) (ds : list (list (list decision))) (players : list nat) : res (list sample) :=
  match players with
  | [] => Ok []
  | p :: r =>
      if Nat.eqb (List.length (List.concat (nth p ds []))) 0 then post_players a t f ds r
      else
        '(mask, y, x) <- foldM (post_type a) (repeat 0 154, 0, false) (enumerate (nth p ds [])) ;;
        rest <- (if x : bool then Ok [] else post_players a t f ds r) ;;
        Ok (MkSample t f mask y (Z.of_nat p) :: rest)
  end.

(** players[action_player + 1 :] + players[:action_player] (transformer.py:955); the
    acting player is a seat number 0..3. *)
Definition others_in_order (p : nat) : list nat := skipn (S p) (seq 0 4) ++ firstn p (seq 0 4).

(** transformer.py:931-1003.  [decisions] has one entry per player. *)
Definition post_sample (a : agent) (padded : list Z) (player : Z) (v : sview) (ds : list (list (list decision))) (idx : Z) : res (list sample) :=
  if Nat.eqb (List.length (List.concat (List.concat ds))) 0 then Ok [] else
  t <- token_row padded idx ;;
  f <- convert_state a v ;;
  post_players a t f ds (others_in_order (Z.to_nat player)).

(** ** One round *)
Record tensors := MkTensors { t_during : list sample; t_discard : list sample; t_post : list sample }.

(** transformer.py:873-879 and 1024-1030: at least two allowed actions per row *)
Definition two_allowed (rows : list sample) : bool := forallb (fun r => 2 <=? vsum (r_mask r)) rows.
(** transformer.py:744-749: at least one non-zero entry per row *)
Definition one_allowed (rows : list sample) : bool := forallb (fun r => existsb (fun x => negb (x =? 0)) (r_mask r)) rows.

(** transformer.py:606-640, with the three builders (642-903, 905-1046).  The half-turns
    are sorted by type first; an exception is the first one raised. *)
Definition build_tensors (a : agent) (turns : list (halfturn sview)) (tokens : list Z) : res tensors :=
  let padded := pad_tokens tokens in
  during <- mapM (fun h => match h with DuringTurn p v ds i => during_sample a padded p v ds i | _ => Ok [] end) turns ;;
  _ <- passert (two_allowed (List.concat during)) ;;
  discard <- mapM (fun h => match h with DiscardTurn p v t i => s <- discard_sample a padded p v t i ;; Ok [s] | _ => Ok [] end) turns ;;
  _ <- passert (one_allowed (List.concat discard)) ;;
  post <- mapM (fun h => match h with PostTurn p v ds i => post_sample a padded p v ds i | _ => Ok [] end) turns ;;
  _ <- passert (two_allowed (List.concat post)) ;;
  Ok (MkTensors (List.concat during) (List.concat discard) (List.concat post)).

(** ** A batch of games *)
(** A game as returned by [process]: half-turns and tokens of every round. *)
Definition game : Type := list (list (halfturn sview)) * list (list Z).

(** transformer.py:557-604: zip of an empty list cannot be unpacked into four names;
    transformer_conv_ordered.py:581-686 tests for that case. *)
Definition stack_batches (a : agent) (l : list tensors) : res tensors :=
  match l, a with
  | [], ORDERED => Ok (MkTensors [] [] [])
  | [], _ => Err ValueError
  | _, _ => Ok (MkTensors (List.concat (map t_during l)) (List.concat (map t_discard l)) (List.concat (map t_post l)))
  end.

(** transformer.py:529-555 *)
Definition prepare_batches (a : agent) (games : list game) : res tensors :=
  ts <- mapM (fun g => mapM (fun r => build_tensors a (fst r) (snd r)) (combine (fst g) (snd g))) games ;;
  stack_batches a (List.concat ts).
