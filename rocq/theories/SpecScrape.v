(** Specification vocabulary for downloading game logs: index pages, the requests a page
    asks for, and the files to expect afterwards. *)
From Coq Require Import ZArith List Bool String Ascii.
From Verif Require Import Base Train Scrape ScrapeRun.
Import ListNotations.
Open Scope Z_scope.

(** No character of [s] satisfies [f]. *)
Fixpoint without (f : ascii -> bool) (s : string) : Prop :=
  match s with EmptyString => True | String c r => f c = false /\ without f r end.
Definition is_gt (c : ascii) : bool := Ascii.eqb c ">"%char.
Definition is_newline (c : ascii) : bool := Nat.eqb (nat_of_ascii c) 10.
(** The two quote characters, by their codes. *)
Definition quotation (c : ascii) : bool := let n := nat_of_ascii c in Nat.eqb n 34 || Nat.eqb n 39.

(** The white space characters, by their codes: tab to carriage return, the separators 28 to
    31, space, next line and no-break space. *)
Definition white (c : ascii) : bool :=
  existsb (Nat.eqb (nat_of_ascii c)) [9; 10; 11; 12; 13; 28; 29; 30; 31; 32; 133; 160]%nat.

(** ** Pages: text and links in any order *)
Inductive piece :=
| Text (t : string)
| Anchor (w : ascii) (attrs : string) (q1 : ascii) (url : string) (q2 : ascii) (rest : string).
Definition render (x : piece) : string :=
  match x with
  | Text t => t
  | Anchor w a q1 u q2 r => "<a" ++ String w a ++ "href=" ++ String q1 (u ++ String q2 (r ++ ">"))
  end.
Definition page (l : list piece) : string := fold_right (fun x s => (render x ++ s)%string) EmptyString l.
(** No "<" of the text starts a link: it is followed, within the text, by something other
    than "a", or by "a" and something other than white space. *)
Fixpoint no_anchor (t : string) : Prop :=
  match t with
  | EmptyString => True
  | String c r => (c = "<"%char -> exists x r', r = String x r' /\
      (x = "a"%char -> exists y r'', r' = String y r'' /\ white y = false)) /\ no_anchor r
  end.
Definition proper (x : piece) : Prop :=
  match x with
  | Text t => no_anchor t
  | Anchor w a q1 u q2 r =>
      white w = true /\ without is_gt a /\ (forall b c, a <> (b ++ "href=" ++ c)%string) /\
      quotation q1 = true /\ quotation q2 = true /\
      without quotation u /\ without is_newline u /\ without is_gt r /\ without is_newline r
  end.
Definition addresses (l : list piece) : list string :=
  flat_map (fun x => match x with Anchor _ _ _ u _ _ => [u] | Text _ => [] end) l.

(** ** Requests and files *)
(** The text up to the first [=], if any. *)
Fixpoint up_to_equals (s : string) : string :=
  match s with EmptyString => EmptyString | String c r => if Ascii.eqb c "="%char then EmptyString else String c (up_to_equals r) end.
(** The request for an address and the file for the answer, if it is a log address: the
    log name is what follows [log=], up to the next [=]; one that starts with a slash is
    taken as a path of its own. *)
Definition log_prefix : string := "http://tenhou.net/0/?log=".
Definition wanted_by (url : string) : list (string * string) :=
  if String.prefix log_prefix url then
    let name := up_to_equals (substring (String.length log_prefix) (String.length url - String.length log_prefix) url) in
    [(("https://tenhou.net/0/log/?" ++ name)%string,
      match name with String "/" _ => (name ++ ".log")%string | _ => ("processed/2021/" ++ name ++ ".log")%string end)]
  else [].
Definition wanted (urls : list string) : list (string * string) := flat_map wanted_by urls.
(** The addresses in the pages among the directory entries. *)
Definition all_links (entries : list (string * string)) : list string :=
  flat_map (fun e => if ends_with ".html" (fst e) then find_links (snd e) else []) entries.

(** The content of [p] after the answers [tr] for the wanted files [ws] (in step): the
    last good answer whose file is [p] and can be written, else what was there. *)
Fixpoint expected (can : writable) (ws : list (string * string)) (tr : list (string * (Z * string))) (p : string) (old : option string) : option string :=
  match ws, tr with
  | (_, path) :: ws', (_, (status, body)) :: tr' =>
      expected can ws' tr' p (if (status =? 200) && can path && String.eqb p path then Some body else old)
  | _, _ => old
  end.

(** Power loss while an answer is being written: the file holds a prefix of it. *)
Definition interrupted (get : client) (can : writable) (urls : list string) (d d' : fs) (path : string) : Prop :=
  exists before url after req body b c,
    urls = before ++ url :: after /\
    let st := fold_left (do_link get can) before (MkRun [] d None) in
    r_stop st = None /\ scrape_link url = Some (Ok (req, path)) /\ get (map fst (r_trace st)) req = Ok (200, body) /\
    can path = true /\ body = (b ++ c)%string /\ d' = write path b (r_disk st).

(** ** The raw directory *)
Definition names (d : dir) : list string := map fst d.
(** No file is there both packed and unpacked. *)
Definition no_twins (d : dir) : Prop := forall n, In n (names d) -> In (n ++ ".gz")%string (names d) -> False.
(** A file is kept by the clean-up. *)
Definition kept (n : string) : Prop := (exists r, n = ("." ++ r)%string) \/ (exists r, n = ("scc" ++ r)%string).
(** [n] is a packed index file that the decoder accepts, with this content. *)
Definition unpacks (unz : string -> option string) (n z base v : string) : Prop :=
  n = (base ++ ".gz")%string /\ (exists r, n = ("scc" ++ r)%string) /\ unz z = Some v.
