(** C20 (order of the events) and C110: what of a log matters. *)
From Coq Require Import ZArith List Bool String Lia.
From Verif Require Import Base Process SpecRound RoundExamples SpecReads ReadsLemmas PropsRound.
Import ListNotations.
Open Scope Z_scope.

(** C20: the events are taken in the order of the document, each element before its children,
    whatever the nesting. *)
Theorem C20_document_order : forall root evs, listed root evs <-> evs = traverse root.
Proof. intros root evs. split; [apply listed_unique|intros ->; apply traverse_listed]. Qed.
Print Assumptions C20_document_order.

(** C110: two logs that mean the same are converted alike, exceptions included. *)
Theorem C110_meaning : forall L root root' evs evs', listed root evs -> listed root' evs' -> rules root = rules root' ->
  Forall2 same_meaning (filter (fun e => negb (in_header e)) evs) (filter (fun e => negb (in_header e)) evs') ->
  process L root = process L root'.
Proof. exact process_reads. Qed.
Print Assumptions C110_meaning.

(** The small log with the attributes in another order and further ones, other speed and
    level bits, player names, and all events below another element. *)
Definition dressed (e : event) : elem := Elem (e_tag e) (("ba", "x") :: rev (e_attr e))%string [].
Definition dressed_log : elem :=
  Elem "mjloggm" [("ver", "2.3")]%string
    [Elem "SHUFFLE" [("seed", "abc")]%string [];
     Elem "GO" [("lobby", "0"); ("type", "9")]%string [];
     Elem "UN" [("n0", "a"); ("dan", "1,2,3,4")]%string [Elem "TAIKYOKU" [("oya", "0")]%string (map dressed small_round)]].

Example C110_example : listed dressed_log (traverse dressed_log) /\ rules (small_log "169") = rules dressed_log /\
  Forall2 same_meaning (filter (fun e => negb (in_header e)) (traverse (small_log "169"))) (filter (fun e => negb (in_header e)) (traverse dressed_log)) /\
  traverse (small_log "169") <> traverse dressed_log /\ exists out, process ex_libs dressed_log = Ok out.
Proof.
  assert (M : Forall2 same_meaning (filter (fun e => negb (in_header e)) (traverse (small_log "169"))) (filter (fun e => negb (in_header e)) (traverse dressed_log))).
  { vm_compute. repeat (constructor; [split; [reflexivity|]; cbn [In]; intros k H; repeat destruct H as [<-|H]; try contradiction; reflexivity|]). constructor. }
  assert (R : rules (small_log "169") = rules dressed_log) by reflexivity.
  split; [apply traverse_listed|]. split; [exact R|]. split; [exact M|]. split; [discriminate|].
  destruct C19_example as ((out & H) & _). exists out. transitivity (process ex_libs (small_log "169")); [|exact H]. symmetry.
  exact (C110_meaning ex_libs (small_log "169") dressed_log _ _ (traverse_listed (small_log "169")) (traverse_listed dressed_log) R M).
Qed.
