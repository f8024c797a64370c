(** Property C67: download URLs and file names. *)
From Coq Require Import ZArith List Bool String Ascii.
From Verif Require Import Base Train TrainLemmas Scrape.
Import ListNotations.

(** [c] does not occur in [s] *)
Fixpoint absent (c : ascii) (s : string) : Prop :=
  match s with EmptyString => True | String x r => x <> c /\ absent c r end.

Lemma split_first c g : forall t, absent c g -> (t = EmptyString \/ exists r, t = String c r) ->
  nth_error (split_on c (g ++ t)) 0 = Some g.
Proof.
  induction g as [|x g IH]; intros t A T.
  - cbn [String.append]. destruct T as [->|(r & ->)]; [reflexivity|]. cbn.
    destruct (split_on c r) eqn:E; [|now rewrite Ascii.eqb_refl]. destruct r; cbn in E; [discriminate|]. destruct (split_on c r); [discriminate|]. destruct (Ascii.eqb a c); discriminate.
  - destruct A as [A1 A2]. specialize (IH t A2 T). cbn. destruct (split_on c (g ++ t)) as [|w ws]; [discriminate|].
    cbn in IH. injection IH as ->. destruct (Ascii.eqb_spec x c); [now elim A1|]. reflexivity.
Qed.

Lemma split_cons c s : exists w ws, split_on c s = w :: ws.
Proof.
  induction s as [|x s (w & ws & E)]; [now exists EmptyString, []|]. cbn. rewrite E. destruct (Ascii.eqb x c); eauto.
Qed.

Lemma split_second c p s : absent c p -> nth_error (split_on c (p ++ String c s)) 1 = nth_error (split_on c s) 0.
Proof.
  induction p as [|x p IH]; intros A.
  - cbn. destruct (split_cons c s) as (w & ws & ->). now rewrite Ascii.eqb_refl.
  - destruct A as [A1 A2]. specialize (IH A2). cbn. destruct (split_on c (p ++ String c s)) as [|w ws]; [cbn in IH; destruct (split_cons c s) as (w & ws & E); now rewrite E in IH|].
    destruct (Ascii.eqb_spec x c); [now elim A1|]. exact IH.
Qed.

(** The part of the link after "log=", up to the next "=" if there is one *)
Theorem C67_download_partial : forall g t, absent "="%char g -> (t = EmptyString \/ exists r, t = String "="%char r) ->
  (forall r, g <> String "/"%char r) ->
  scrape_link ("http://tenhou.net/0/?log=" ++ g ++ t) =
  Some (Ok (("https://tenhou.net/0/log/?" ++ g)%string, ("processed/2021/" ++ g ++ ".log")%string)).
Proof.
  intros g t A T N. unfold scrape_link. rewrite strip_prefix_app.
  change ("http://tenhou.net/0/?log=" ++ g ++ t)%string with ("http://tenhou.net/0/?log" ++ String "="%char (g ++ t))%string.
  rewrite split_second, split_first; [|exact A|exact T|repeat split; discriminate].
  do 2 f_equal. f_equal. destruct g as [|c g]; [reflexivity|]. unfold path_join. cbn [String.append].
  destruct (Ascii.eqb_spec c "/"%char) as [->|]; [now elim (N g)|]. reflexivity.
Qed.
Print Assumptions C67_download_partial.

(** Links of any other form are ignored. *)
Theorem C67_others_ignored : forall url, (forall g, url <> ("http://tenhou.net/0/?log=" ++ g)%string) -> scrape_link url = None.
Proof.
  intros url H. unfold scrape_link. destruct (strip_prefix "http://tenhou.net/0/?log=" url) as [g|] eqn:E; [|reflexivity].
  apply strip_prefix_inv in E. now elim (H g).
Qed.
Print Assumptions C67_others_ignored.

(** A log name that starts with a slash is written outside the output directory. *)
Theorem C67_refuted : forall g, absent "="%char g -> scrape_link ("http://tenhou.net/0/?log=/" ++ g) =
  Some (Ok (("https://tenhou.net/0/log/?/" ++ g)%string, ("/" ++ g ++ ".log")%string)).
Proof.
  intros g A. unfold scrape_link. change ("http://tenhou.net/0/?log=/" ++ g)%string with ("http://tenhou.net/0/?log=" ++ String "/"%char g)%string.
  rewrite strip_prefix_app. change ("http://tenhou.net/0/?log=" ++ String "/"%char g)%string with ("http://tenhou.net/0/?log" ++ String "="%char (String "/"%char g))%string.
  rewrite split_second by (repeat split; discriminate).
  replace (String "/"%char g) with (String "/"%char g ++ "")%string by (cbn; now rewrite sapp_nil).
  rewrite split_first; [reflexivity|split; [discriminate|exact A]|now left].
Qed.
Print Assumptions C67_refuted.

Example C67_example : scrape_link "http://tenhou.net/0/?log=2021010100gm-00a9-0000-0a1b2c3d&tw=2" =
  Some (Ok ("https://tenhou.net/0/log/?2021010100gm-00a9-0000-0a1b2c3d&tw"%string, "processed/2021/2021010100gm-00a9-0000-0a1b2c3d&tw.log"%string)).
Proof. reflexivity. Qed.
