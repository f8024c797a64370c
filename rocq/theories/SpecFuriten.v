(** The furiten rules, for C111: a player who could have won on an earlier tile may not win on
    a discard. *)
From Coq Require Import ZArith List Bool.
From Verif Require Import Base Decision Process SpecTokens SpecRound.
Import ListNotations.
Open Scope Z_scope.

Section Furiten.
  (** Which hands (counts by type) are won. *)
  Variable wins : list Z -> Prop.

  (** Hand [h] is completed by a tile of type [k]. *)
  Definition completed_by (h : list Z) (k : Z) : Prop := 0 <= k < 34 /\ wins (vadd h (Z.to_nat k) 1).

  (** The player has discarded a tile that completes the hand. *)
  Definition own_discard (h : list Z) (p : Z) (pls : list play) : Prop :=
    exists x, In x (discarded p pls) /\ completed_by h (x / 4).
  (** Somebody has discarded one since the player's own last play. *)
  Definition let_pass (h : list Z) (p : Z) (pls : list play) : Prop :=
    exists h1 w x h2, pls = h1 ++ PlDiscard w x :: h2 /\ w <> p /\ completed_by h (tid x / 4) /\
      Forall (fun a => match a with PlDraw q _ | PlDiscard q _ | PlCall q _ => q <> p | _ => True end) h2.
  (** Somebody has discarded one since the player's riichi. *)
  Definition let_pass_in_riichi (h : list Z) (p : Z) (pls : list play) : Prop :=
    exists h1 h2 w x h3, pls = h1 ++ PlReach2 p :: h2 ++ PlDiscard w x :: h3 /\ completed_by h (tid x / 4).
  Definition in_furiten (h : list Z) (p : Z) (pls : list play) : Prop :=
    own_discard h p pls \/ let_pass h p pls \/ let_pass_in_riichi h p pls.
End Furiten.

(** In the half-turn recorded last, a ron on the tile of player [w] is offered to player [p]. *)
Definition ron_offered (s : rstate) (w p : Z) : Prop :=
  exists so ds lists i r, s_half s = PostTurn w so ds i :: r /\ nth (Z.to_nat p) ds [] = [AgariDecision p false] :: lists.
