(** C98: which data an iteration trains on. *)
From Coq Require Import ZArith List Bool String Ascii Lia PeanoNat Permutation.
From Verif Require Import Base Process DataLoader Tensor Train TrainLemmas Scrape TrainLoop SpecTrainLoop TrainLoopLemmas TrainDirs PropsTrainLoop.
Import ListNotations.
Open Scope Z_scope.

(** The directory of a year. *)
Definition year_dir (yr : nat) : string := "data/processed/" ++ dec yr ++ "/".
(** The year trained on in iteration [i]. *)
Definition year_of (i : nat) : nat := 2012 + i mod 8.

Lemma train_dirs_nth i : nth_error train_dirs (i mod 8) = Some (year_dir (year_of i)).
Proof.
  unfold train_dirs, year_of. pose proof (Nat.mod_upper_bound i 8 ltac:(discriminate)) as B. set (k := (i mod 8)%nat) in *. clearbody k.
  rewrite nth_error_map, (nth_error_nth' (seq 2012 8) 0%nat) by (rewrite seq_length; exact B). cbn [option_map]. rewrite seq_nth by exact B. reflexivity.
Qed.

(** Every iteration [i] of a run trains on exactly the files of the year [year_of i] and
    validates on those of 2021: the events of the run are those of C87 with these files. *)
Inductive yearly_trace (a : agent) (proc : string -> res game) (bs : Z) (ls : string -> list string) : nat -> nat -> Z -> list tevent -> Prop :=
| yt_end iter z : yearly_trace a proc bs ls O iter z []
| yt_iter m iter z fuel batches d evs z' rest :
    iterate proc fuel (dl_init (files_of ls (year_dir (year_of iter))) bs) = Some (batches, Ok tt, d) ->
    iteration_trace a proc bs (files_of ls (year_dir 2021)) iter 0 batches z evs z' ->
    yearly_trace a proc bs ls m (S iter) z' rest ->
    yearly_trace a proc bs ls (S m) iter z (evs ++ Save iter :: rest).
Theorem C98_run : forall a proc rnd fuel bs m start ls s, random_orders rnd -> 0 < bs ->
  run_dirs a proc rnd fuel bs m start ls = Ok s -> yearly_trace a proc bs ls m start 0 (t_trace s).
Proof.
  intros a proc rnd fuel bs m start ls s R B H. unfold run_dirs in H. generalize (C87_run _ _ _ _ _ _ _ _ _ _ R B H). clear H. generalize 0, (t_trace s). clear.
  intros z l H. change val_dir with (year_dir 2021) in H. remember (map (files_of ls) train_dirs) as train eqn:Et. induction H as [|m iter z files fuel batches d evs z' rest N I T _ IH]; [constructor|].
  subst train. rewrite map_length in N. change (List.length train_dirs) with 8%nat in N. rewrite nth_error_map, train_dirs_nth in N. cbn [option_map] in N. injection N as <-.
  econstructor; [exact I|exact T|auto].
Qed.
Print Assumptions C98_run.

(** Any eight consecutive iterations, wherever a run starts, use each year 2012-2019 once. *)
Theorem C98_every_year : forall start, Permutation (map year_of (seq start 8)) (seq 2012 8).
Proof.
  intros start. apply NoDup_Permutation_bis.
  - apply (NoDup_nth _ 0%nat). rewrite map_length, seq_length. intros i j Hi Hj E.
    assert (Q : forall k, (k < 8)%nat -> nth k (map year_of (seq start 8)) 0%nat = year_of (start + k)).
    { intros k Hk. rewrite (nth_indep _ 0%nat (year_of 0%nat)) by (rewrite map_length, seq_length; exact Hk). rewrite map_nth, seq_nth by exact Hk. reflexivity. }
    rewrite !Q in E by assumption. unfold year_of in E.
    pose proof (Nat.div_mod (start + i) 8 ltac:(discriminate)). pose proof (Nat.div_mod (start + j) 8 ltac:(discriminate)). lia.
  - rewrite map_length, !seq_length. reflexivity.
  - intros y H. apply in_map_iff in H as (i & <- & _). unfold year_of. apply in_seq. pose proof (Nat.mod_upper_bound i 8 ltac:(discriminate)). lia.
Qed.
Print Assumptions C98_every_year.

(** No file is both trained and validated on, and the downloaded logs (C94) go to the
    validation directory. *)
Definition plain_name (f : string) : Prop := forall r, f <> ("/" ++ r)%string.
Lemma join_plain d f : plain_name f -> (exists x, d = (x ++ "/")%string) -> path_join d f = (d ++ f)%string.
Proof.
  intros P (x & ->). assert (E : ends_with "/" (x ++ "/") = true) by (apply ends_with_spec; now exists x).
  unfold path_join. destruct f as [|c f]; [now rewrite E, sapp_nil|]. destruct (Ascii.eqb_spec c "/"%char) as [->|_]; [now elim (P f)|]. now rewrite E.
Qed.
Theorem C98_validation_unseen : forall ls, (forall d f, In f (ls d) -> plain_name f) ->
  forall yr f, (2012 <= yr < 2020)%nat -> In f (files_of ls (year_dir yr)) -> In f (files_of ls val_dir) -> False.
Proof.
  intros ls P yr f Y A B. unfold files_of in A, B. apply in_map_iff in A as (g & <- & A). apply in_map_iff in B as (h & E & B).
  rewrite !join_plain in E; [|exact (P _ _ A)|now exists ("data/processed/" ++ dec yr)%string; unfold year_dir; rewrite !sapp_assoc|exact (P _ _ B)|now exists "data/processed/2021"%string].
  assert (C : In yr (seq 2012 8)) by (apply in_seq; lia). unfold year_dir in E.
  cbn [seq In] in C. repeat (destruct C as [<-|C]; [lazy in E; discriminate E|]). exact C.
Qed.
Print Assumptions C98_validation_unseen.
Theorem C98_downloads : ("data/" ++ output_dir)%string = val_dir.
Proof. reflexivity. Qed.
Print Assumptions C98_downloads.
Example C98_example : year_of 0 = 2012%nat /\ year_of 7 = 2019%nat /\ year_of 13 = 2017%nat /\ year_dir 2017 = "data/processed/2017/"%string /\ plain_name "a.log".
Proof. repeat split; try (lazy; reflexivity). intros r H. discriminate H. Qed.
