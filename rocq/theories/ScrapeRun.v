(** Model of a run of MahjongAI/data/scrape_data.py (all lines) and of
    MahjongAI/data/filter_raw.sh.

    Simplifications: a character is one of the first 256 code points; page texts are as
    Python sees them after decoding and newline translation; the HTTP client, the
    writability of a path and the gzip decoder are arguments. *)
From Coq Require Import ZArith List Bool String Ascii.
From Verif Require Import Base Train Scrape.
Import ListNotations.
Open Scope Z_scope.

(** ** Finding links: scrape_data.py:16, the regular expression
    [<a\s+[^>]*?href=Q(.*?)Q.*?>], with Q the class of the two quote characters, and
    [re.findall] *)

(** [\s] *)
Definition is_space (c : ascii) : bool :=
  let n := nat_of_ascii c in
  (Nat.leb 9 n && Nat.leb n 13) || (Nat.leb 28 n && Nat.leb n 32) || Nat.eqb n 133 || Nat.eqb n 160.
Definition newline : ascii := ascii_of_nat 10.
Definition dquote : ascii := ascii_of_nat 34.
Definition squote : ascii := ascii_of_nat 39.
(** Q, the class of the two quote characters *)
Definition is_quote (c : ascii) : bool := Ascii.eqb c squote || Ascii.eqb c dquote.

(** [(.*?)Q]: up to the first quote of the line.  If the rest of the expression fails
    after the first quote it fails after every later one of the line, so there is no
    backtracking to model. *)
Fixpoint to_quote (s : string) : option (string * string) :=
  match s with
  | EmptyString => None
  | String c r =>
      if is_quote c then Some (EmptyString, r)
      else if Ascii.eqb c newline then None
      else match to_quote r with Some (u, e) => Some (String c u, e) | None => None end
  end.
(** [.*?>]: past the first ">" of the line *)
Fixpoint past_gt (s : string) : option string :=
  match s with
  | EmptyString => None
  | String c r => if Ascii.eqb c ">"%char then Some r else if Ascii.eqb c newline then None else past_gt r
  end.
(** [href=Q(.*?)Q.*?>] at this position: the group and the text after the match *)
Definition href_here (s : string) : option (string * string) :=
  match strip_prefix "href=" s with
  | Some (String q r) =>
      if is_quote q then
        match to_quote r with
        | Some (u, e) => match past_gt e with Some e' => Some (u, e') | None => None end
        | None => None
        end
      else None
  | _ => None
  end.
(** [[^>]*?] followed by the above: the first position before any ">" *)
Fixpoint find_href (s : string) : option (string * string) :=
  match href_here s with
  | Some x => Some x
  | None => match s with
            | EmptyString => None
            | String c r => if Ascii.eqb c ">"%char then None else find_href r
            end
  end.
(** The whole expression at this position.  [\s+] needs one space; what further spaces it
    takes is equally matched by [[^>]*?]. *)
Definition link_at (s : string) : option (string * string) :=
  match strip_prefix "<a" s with
  | Some (String c r) => if is_space c then find_href r else None
  | _ => None
  end.
(** [re.findall]: leftmost matches, each search resuming after the last match.  Every
    step shortens the text, so its length is enough fuel. *)
Fixpoint findall_fuel (n : nat) (s : string) : list string :=
  match n, s with
  | S n', String _ r =>
      match link_at s with
      | Some (u, e) => u :: findall_fuel n' e
      | None => findall_fuel n' r
      end
  | _, _ => []
  end.
Definition find_links (s : string) : list string := findall_fuel (String.length s) s.

(** ** The download loop: scrape_data.py:9-36 *)

(** File contents by path. *)
Definition fs := string -> option string.
Definition write (p v : string) (d : fs) : fs := fun q => if String.eqb q p then Some v else d q.

(** The answer to a request (status and body, or an exception of the client), given the
    requests made before. *)
Definition client := list string -> string -> res (Z * string).
(** Which paths can be opened for writing. *)
Definition writable := string -> bool.

(** Requests made so far with the answers received, files, and the exception that ended
    the run, if any. *)
Record run_state := MkRun { r_trace : list (string * (Z * string)); r_disk : fs; r_stop : option exn }.

(** scrape_data.py:19-36: one link *)
Definition do_link (get : client) (can : writable) (st : run_state) (url : string) : run_state :=
  match r_stop st with
  | Some _ => st
  | None =>
      match scrape_link url with
      | None => st
      | Some (Err e) => MkRun (r_trace st) (r_disk st) (Some e)
      | Some (Ok (req, path)) =>
          match get (map fst (r_trace st)) req with
          | Err e => MkRun (r_trace st) (r_disk st) (Some e)
          | Ok (status, body) =>
              let tr := r_trace st ++ [(req, (status, body))] in
              if status =? 200 then
                if can path then MkRun tr (write path body (r_disk st)) None
                else MkRun tr (r_disk st) (Some RuntimeError)
              else MkRun tr (r_disk st) None
          end
      end
  end.
(** scrape_data.py:10-36: one directory entry (name and text) *)
Definition do_page (get : client) (can : writable) (st : run_state) (entry : string * string) : run_state :=
  if ends_with ".html" (fst entry) then fold_left (do_link get can) (find_links (snd entry)) st else st.
(** scrape_data.py:9-36: the entries in the order of [os.listdir] *)
Definition scrape_run (get : client) (can : writable) (entries : list (string * string)) (d : fs) : run_state :=
  fold_left (do_page get can) entries (MkRun [] d None).

(** ** filter_raw.sh *)

(** The regular files of raw/2021/ by name.  Subdirectories are not modelled. *)
Definition dir := list (string * string).
(** A shell wildcard does not match names that start with a dot. *)
Definition visible (n : string) : bool := match n with String c _ => negb (Ascii.eqb c "."%char) | EmptyString => true end.
Definition starts_scc (n : string) : bool := match strip_prefix "scc" n with Some _ => true | None => false end.
Definition remove_file (n : string) (d : dir) : dir := filter (fun e => negb (String.eqb (fst e) n)) d.
Definition lookup (n : string) (d : dir) : option string := option_map snd (find (fun e => String.eqb (fst e) n) d).

(** filter_raw.sh:6-11.  With no visible file the pattern stays unexpanded and rm fails
    on it, which changes nothing. *)
Definition delete_others (d : dir) : dir :=
  fold_left (fun d n => if starts_scc n then d else remove_file n d) (List.filter visible (map fst d)) d.
(** [${file%.gz}] *)
Fixpoint strip_suffix (suf s : string) : option string :=
  if String.eqb suf s then Some EmptyString
  else match s with EmptyString => None | String c r => option_map (String c) (strip_suffix suf r) end.
(** gunzip of one file: [unz] is the decoder.  A damaged file is kept, and an existing
    target is not overwritten (no terminal to ask). *)
Definition gunzip (unz : string -> option string) (d : dir) (n : string) : dir :=
  match strip_suffix ".gz" n, lookup n d with
  | Some base, Some z =>
      match unz z, lookup base d with
      | Some v, None => remove_file n d ++ [(base, v)]
      | _, _ => d
      end
  | _, _ => d
  end.
(** filter_raw.sh:14-18 *)
Definition unzip_all (unz : string -> option string) (d : dir) : dir :=
  fold_left (gunzip unz) (List.filter (fun n => visible n && ends_with ".gz" n) (map fst d)) d.
(** filter_raw.sh *)
Definition filter_raw (unz : string -> option string) (d : dir) : dir := unzip_all unz (delete_others d).
