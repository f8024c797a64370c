(** Model of the event-token functions of MahjongAI/process_xml.py:594-667. *)
From Coq Require Import ZArith List Bool.
From Verif Require Import Base Constants Naki.
Import ListNotations.
Open Scope Z_scope.

Definition tok_or (state type_ who rest : Z) : Z :=
  Z.lor (Z.lor (Z.lor (Z.shiftl state 13) (Z.shiftl type_ 10)) (Z.shiftl who 8)) rest.

(** process_xml.py:594-602.  (The event type really is NAKI, line 598.) *)
Definition discard2idx (who tile_idx : Z) (is_tsumogiri : bool) : res Z :=
  _ <- passert ((0 <=? tile_idx) && (tile_idx <? 37)) ;;
  Ok (Z.lor (Z.lor (Z.lor (Z.lor (Z.shiftl EST_DISCARD 13) (Z.shiftl ET_NAKI 10)) (Z.shiftl who 8))
             (Z.shiftl (b2z is_tsumogiri) 7)) tile_idx).

(** process_xml.py:605-653 *)
Definition naki2idx (who c : Z) : res Z :=
  _ <- passert ((0 <=? who) && (who <? 4)) ;;
  embd_token <-
    (if is_chi c then i <- get_post_turn_filter_idx c ;; Ok (tok_or EST_POST ET_NAKI who i)
     else if is_pon c then i <- get_post_turn_filter_idx c ;; Ok (tok_or EST_POST ET_NAKI who i)
     else if is_kakan c then i <- get_during_turn_filter_idx c ;; Ok (tok_or EST_DURING ET_NAKI who i)
     else if is_minkan c then i <- get_post_turn_filter_idx c ;; Ok (tok_or EST_POST ET_NAKI who i)
     else if is_ankan c then i <- get_during_turn_filter_idx c ;; Ok (tok_or EST_DURING ET_NAKI who i)
     else Err ValueError) ;;
  _ <- passert (embd_token <=? Z.shiftl 1 17) ;;
  Ok embd_token.

(** process_xml.py:656-660 *)
Definition reach2idx (who : Z) : res Z :=
  _ <- passert ((0 <=? who) && (who <? 4)) ;;
  let embd_token := tok_or EST_DURING ET_RIICHI who 2 in
  _ <- passert (embd_token <=? Z.shiftl 1 17) ;;
  Ok embd_token.

(** process_xml.py:663-667 *)
Definition new_dora2idx (tile_idx : Z) : res Z :=
  _ <- passert ((0 <=? tile_idx) && (tile_idx <? 37)) ;;
  let embd_token := Z.lor (Z.lor (Z.shiftl EST_NEW_DORA 13) (Z.shiftl ET_NEW_DORA 10)) tile_idx in
  _ <- passert (embd_token <=? Z.shiftl 1 17) ;;
  Ok embd_token.
