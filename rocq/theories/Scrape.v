(** Model of the link handling of MahjongAI/data/scrape_data.py:19-34.  Finding the
    links in the HTML (line 16) and the HTTP request are not modelled. *)
From Coq Require Import ZArith List Bool String Ascii.
From Verif Require Import Base Train.
Import ListNotations.

(** scrape_data.py:6 *)
Definition output_dir : string := "processed/2021/".

(** scrape_data.py:20-31: for one link, the URL requested and the file the answer is
    stored in; [None] if the link is ignored. *)
Definition scrape_link (url : string) : option (res (string * string)) :=
  match strip_prefix "http://tenhou.net/0/?log=" url with
  | None => None
  | Some _ =>
      Some (match nth_error (split_on "="%char url) 1 with
            | None => Err IndexError
            | Some gid => Ok (("https://tenhou.net/0/log/?" ++ gid)%string,
                              path_join output_dir (gid ++ ".log")%string)
            end)
  end.
