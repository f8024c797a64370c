(** Specification vocabulary for the networks (C52, C78-C80). *)
From Coq Require Import ZArith List Bool Reals.
From Verif Require Import Base SpecTokens Tensor Network.
Import ListNotations.
Open Scope Z_scope.

(** What a sample must look like for the head [h]: 150 known tokens, state features of the
    documented sizes (3 x 37, 3 x 37 x 4 or 6 x 37 x 4; 7 x 4; 4), a 0/1 mask of the width of
    the head with an allowed action, and a label of the head. *)
Definition channels (a : agent) : nat := match a with ORDERED => 6 | _ => 3 end.
Definition depth (a : agent) : nat := match a with TF => 1 | _ => 4 end.
Definition fits (a : agent) (h : which) (r : sample) : Prop :=
  List.length (r_tokens r) = 150%nat /\ Forall (fun t => enc_type t <= 4) (r_tokens r) /\
  List.length (f_x1 (r_state r)) = channels a /\
  Forall (fun rw => List.length rw = 37%nat /\ Forall (fun p => List.length p = depth a) rw) (f_x1 (r_state r)) /\
  List.length (f_x2 (r_state r)) = 7%nat /\ Forall (fun v => List.length v = 4%nat) (f_x2 (r_state r)) /\
  List.length (f_x3 (r_state r)) = 4%nat /\
  List.length (r_mask r) = width h /\ Forall (fun m => m = 0 \/ m = 1) (r_mask r) /\ In 1 (r_mask r) /\
  0 <= r_label r < Z.of_nat (width h).

(** Action [k] is allowed for sample [n]. *)
Definition allowed (l : list sample) (n k : nat) : Prop := exists r, nth_error l n = Some r /\ nth k (r_mask r) 0 = 1.
(** Every label is an allowed action. *)
Definition labels_allowed (l : list sample) : Prop := Forall (fun r => nth (Z.to_nat (r_label r)) (r_mask r) 0 = 1) l.

(** The network runs in evaluation mode: no dropout layer changes anything. *)
Definition no_drop (m : list nat -> R) : Prop := forall i, m i = 1%R.
Definition evaluation_attention (m : attention) : Prop := (forall k, no_drop (h_drop (m_heads m k))) /\ no_drop (m_drop m).
Definition evaluation (net : network) : Prop :=
  Forall (fun b => evaluation_attention (e_self b) /\ no_drop (f_drop (e_ff b))) (k_enc net) /\
  Forall (fun b => evaluation_attention (d_self b) /\ evaluation_attention (d_cross b) /\ no_drop (f_drop (d_ff b))) (k_dec net).
