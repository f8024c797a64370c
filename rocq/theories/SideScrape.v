(** Model of several downloads at once: MahjongAI/data/scrape_data.py:19-36 run by any
    number of processes that share the output directory, in any interleaving.  A process
    goes through its links in order.  Storing an answer opens the file, which empties it
    (scrape_data.py:32), and writes the answer piece by piece at the position the process
    has reached (33), as the operating system does; a gap left by another process that
    emptied the file meanwhile reads as zero bytes. *)
From Coq Require Import ZArith List Bool String Ascii.
From Verif Require Import Base Train Scrape ScrapeRun.
Import ListNotations.
Open Scope Z_scope.

Fixpoint sdrop (n : nat) (s : string) : string :=
  match n, s with S n', String _ r => sdrop n' r | _, _ => s end.
Fixpoint stake (n : nat) (s : string) : string :=
  match n, s with S n', String c r => String c (stake n' r) | _, _ => EmptyString end.
(** A write of [s] at position [off] of a file with the content [old]. *)
Fixpoint write_at (off : nat) (s old : string) : string :=
  match off with
  | O => (s ++ sdrop (String.length s) old)%string
  | S n => match old with
           | String c r => String c (write_at n s r)
           | EmptyString => String zero (write_at n s EmptyString)
           end
  end.

(** A process: the links ahead, the file being written (path, answer, position), the
    requests made (with path and answer), and whether an exception ended it. *)
Record loader_proc := MkLp {
  lp_links : list string; lp_open : option (string * string * nat);
  lp_trace : list (string * string * (Z * string)); lp_stop : option exn }.
Definition begin (links : list string) : loader_proc := MkLp links None [] None.

(** The next step of a process; [n] is one less than the size of the next piece, [get] the
    answer to a request made now. *)
Definition lp_step (get : string -> res (Z * string)) (can : writable) (n : nat) (d : fs) (p : loader_proc) : fs * loader_proc :=
  match lp_stop p, lp_open p with
  | Some _, _ => (d, p)
  | None, Some (path, body, off) =>
      if Nat.eqb off (String.length body) then (d, MkLp (lp_links p) None (lp_trace p) None)
      else let s := stake (S n) (sdrop off body) in
           (write path (write_at off s (match d path with Some old => old | None => EmptyString end)) d,
            MkLp (lp_links p) (Some (path, body, (off + String.length s)%nat)) (lp_trace p) None)
  | None, None =>
      match lp_links p with
      | [] => (d, p)
      | url :: r =>
          match scrape_link url with
          | None => (d, MkLp r None (lp_trace p) None)
          | Some (Err e) => (d, MkLp r None (lp_trace p) (Some e))
          | Some (Ok (req, path)) =>
              match get req with
              | Err e => (d, MkLp r None (lp_trace p) (Some e))
              | Ok (status, body) =>
                  let tr := lp_trace p ++ [(req, path, (status, body))] in
                  if status =? 200 then
                    if can path then (write path EmptyString d, MkLp r (Some (path, body, 0%nat)) tr None)
                    else (d, MkLp r None tr (Some RuntimeError))
                  else (d, MkLp r None tr None)
              end
          end
      end
  end.

(** [answer t req]: what the server says to the request [req] at time [t].  A schedule says
    which process goes on, and how much it writes if it is writing. *)
Fixpoint downloads (answer : nat -> string -> res (Z * string)) (can : writable) (t : nat) (schedule : list (nat * nat))
    (d : fs) (ps : list loader_proc) : fs * list loader_proc :=
  match schedule with
  | [] => (d, ps)
  | (k, n) :: r =>
      match nth_error ps k with
      | None => downloads answer can (S t) r d ps
      | Some p => let (d', p') := lp_step (answer t) can n d p in
                  downloads answer can (S t) r d' (upd ps k (fun _ => p'))
      end
  end.
