(** Model of MahjongAI/draw.py: the tenhou meld codec. *)
From Coq Require Import ZArith List Bool.
From Verif Require Import Base.
Import ListNotations.
Open Scope Z_scope.

(** draw.py:57-62 the two attributes of a Naki object. *)
Record naki : Type := MkNaki { nk_code : Z; nk_conv : Z }.

(** The tuple returned by the pattern_* methods (draw.py:132-192):
    (color, number, which, has_red, exposed, acquired). *)
Record pattern : Type := MkPat {
  p_color : Z; p_number : Z; p_which : Z; p_red : bool;
  p_exposed : list Z; p_acquired : option Z }.

(** draw.py:114-115 *)
Definition from_who (c : Z) : Z := Z.land c 3.
(** draw.py:117-118 *)
Definition is_chi (c : Z) : bool := negb (Z.land c 0x4 =? 0).
(** draw.py:120-121 *)
Definition is_pon (c : Z) : bool := negb (is_chi c) && negb (Z.land c 0x8 =? 0).
(** draw.py:123-124 *)
Definition is_kakan (c : Z) : bool := negb (is_chi c) && negb (Z.land c 0x10 =? 0).
(** draw.py:126-127 (truthiness of the returned value) *)
Definition is_minkan (c : Z) : bool := (Z.land c 0x3C =? 0) && negb (from_who c =? 0).
(** draw.py:129-130 *)
Definition is_ankan (c : Z) : bool := (Z.land c 0x3C =? 0) && (from_who c =? 0).

(** [x in l] for integers *)
Definition zmem (x : Z) (l : list Z) : bool := existsb (Z.eqb x) l.

(** [exposed.pop(which)]; the index is a remainder, so it is never out of range
    (if it were, Python would raise IndexError: see pop_in_range in NakiProofs). *)
Definition popz (l : list Z) (i : Z) : option Z * list Z :=
  match pop l (Z.to_nat i) with Some (a, r) => (Some a, r) | None => (None, l) end.

(** draw.py:132-146 *)
Definition pattern_chi (c : Z) : pattern :=
  let pat := Z.shiftr (Z.land c 0xFC00) 10 in
  let which := pat mod 3 in
  let pat := pat / 3 in
  let color := pat / 7 in
  let number := pat mod 7 in
  let codes := [Z.shiftr (Z.land c 0x0018) 3; Z.shiftr (Z.land c 0x0060) 5; Z.shiftr (Z.land c 0x0180) 7] in
  let exposed := map (fun ic => (9 * color + number + fst ic) * 4 + snd ic) (combine [0; 1; 2] codes) in
  let has_red := zmem (color * 36 + 16) exposed in
  let '(acq, rest) := popz exposed which in
  MkPat color number which has_red rest acq.

(** draw.py:148-158 *)
Definition pattern_pon (c : Z) : pattern :=
  let pat := Z.shiftr (Z.land c 0xFE00) 9 in
  let which := pat mod 3 in
  let pat := pat / 3 in
  let color := pat / 9 in
  let number := pat mod 9 in
  let code := Z.shiftr (Z.land c 0x0060) 5 in
  let exposed := map (fun k => (9 * color + number) * 4 + k)
                     (filter (fun k => negb (k =? code)) [0; 1; 2; 3]) in
  let has_red := (color <? 3) && zmem (color * 36 + 16) exposed in
  let '(acq, rest) := popz exposed which in
  MkPat color number which has_red rest acq.

(** draw.py:160-170 *)
Definition pattern_kakan (c : Z) : pattern :=
  let pat := Z.shiftr (Z.land c 0xFE00) 9 in
  let which := pat mod 3 in
  let pat := pat / 3 in
  let color := pat / 9 in
  let number := pat mod 9 in
  let has_red := (number =? 4) && negb (color =? 3) in
  let code := Z.shiftr (Z.land c 0x0060) 5 in
  MkPat color number which has_red [(9 * color + number) * 4 + code] None.

(** draw.py:172-181 *)
Definition pattern_minkan (c : Z) : pattern :=
  let pat := Z.shiftr (Z.land c 0xFF00) 8 in
  let which := pat mod 4 in
  let pat := pat / 4 in
  let color := pat / 9 in
  let number := pat mod 9 in
  let has_red := (number =? 4) && negb (color =? 3) in
  let exposed := map (fun k => (9 * color + number) * 4 + k) [0; 1; 2; 3] in
  let '(acq, rest) := popz exposed which in
  MkPat color number which has_red rest acq.

(** draw.py:183-192 *)
Definition pattern_ankan (c : Z) : pattern :=
  let pat := Z.shiftr (Z.land c 0xFF00) 8 in
  let which := pat mod 4 in
  let pat := pat / 4 in
  let color := pat / 9 in
  let number := pat mod 9 in
  let has_red := (number =? 4) && negb (color =? 3) in
  let exposed := map (fun k => (9 * color + number) * 4 + k) [0; 1; 2; 3] in
  MkPat color number which has_red exposed None.

(** [1 << bit]: a negative shift count raises ValueError. *)
Definition one_shl (bit : Z) : res Z :=
  if bit <? 0 then Err ValueError else Ok (Z.shiftl 1 bit).

(** draw.py:78-85 *)
Definition clean_chi (c : Z) : res Z :=
  let p := pattern_chi c in
  let code := Z.land c (Z.lnot (Z.lor (Z.lor 0x18 0x60) 0x180)) in
  let code := Z.lor code (Z.lor (Z.lor 0x8 0x20) 0x80) in
  if p_red p then
    m <- one_shl (3 + (4 - p_number p) * 2) ;; Ok (Z.lxor code m)
  else Ok code.

(** draw.py:87-94 *)
Definition clean_pon (c : Z) : res Z :=
  let p := pattern_pon c in
  let code := Z.land c (Z.lnot 0x60) in
  Ok (if p_red p then
        let code := code + 0x60 in
        if negb (p_which p =? 0) then code - Z.shiftl (p_which p - 1) 9 else code
      else code).

(** draw.py:96-101 *)
Definition clean_kakan (c : Z) : res Z :=
  let p := pattern_kakan c in
  let code := Z.land c (Z.lnot 0x60) in
  Ok (if negb (p_red p) || negb (p_which p =? 0) then Z.lor code 0x20 else code).

(** draw.py:103-108 *)
Definition clean_minkan (c : Z) : res Z :=
  let p := pattern_minkan c in
  Ok (if negb (p_red p) || negb (p_which p =? 0) then c - Z.shiftl (p_which p - 1) 8 else c).

(** draw.py:110-112 *)
Definition clean_ankan (c : Z) : res Z := Ok (Z.land c (Z.lnot (Z.shiftl 3 8))).

(** draw.py:64-76 *)
Definition clean (c : Z) : res Z :=
  if is_chi c then clean_chi c
  else if is_pon c then clean_pon c
  else if is_kakan c then clean_kakan c
  else if is_minkan c then clean_minkan c
  else if is_ankan c then clean_ankan c
  else Err ValueError.

(** draw.py:57-62 Naki(code), the form used when reading a log (clean=True). *)
Definition mk_naki (c : Z) : res naki := v <- clean c ;; Ok (MkNaki c v).
(** draw.py:57-62 Naki(code, clean=False), the form used by the factories. *)
Definition raw_naki (c : Z) : naki := MkNaki c c.

(** draw.py:6-14 *)
Definition from_chi_info (color number which : Z) (has_red : bool) : res naki :=
  let pat := (color * 7 + number) * 3 + which in
  let code := Z.lor (Z.lor (Z.lor (Z.lor (Z.lor 0x3 0x4) 0x8) 0x20) 0x80) (Z.shiftl pat 10) in
  if has_red then
    m <- one_shl (3 + (4 - number) * 2) ;; Ok (raw_naki (Z.lxor code m))
  else Ok (raw_naki code).

(** [assert which in [0, 1]] *)
Definition which01 (which : Z) : res unit := passert ((which =? 0) || (which =? 1)).

(** draw.py:16-27 *)
Definition from_pon_info (tile which : Z) (has_red : bool) (from : Z) : res naki :=
  _ <- which01 which ;;
  let pat := tile * 3 + which in
  let code := Z.lor (Z.lor (Z.land from 3) 0x8) (Z.shiftl pat 9) in
  Ok (raw_naki (if has_red then Z.lor code (Z.shiftl 3 5) else code)).

(** draw.py:29-39 *)
Definition from_kakan_info (tile which : Z) : res naki :=
  _ <- which01 which ;;
  let has_red := (tile <? 27) && (tile mod 9 =? 4) in
  let pat := tile * 3 + which in
  let code := Z.lor 0x10 (Z.shiftl pat 9) in
  Ok (raw_naki (if negb has_red || negb (which =? 0) then Z.lor code (Z.shiftl 1 5) else code)).

(** draw.py:41-48 *)
Definition from_minkan_info (tile from which : Z) : res naki :=
  _ <- which01 which ;;
  let pat := tile * 4 + which in
  Ok (raw_naki (Z.lor (Z.land from 3) (Z.shiftl pat 8))).

(** draw.py:50-55 *)
Definition from_ankan_info (tile : Z) : res naki := Ok (raw_naki (Z.shiftl (tile * 4) 8)).

(** draw.py:194-215 *)
Definition get_exposed (c : Z) : res (list Z * option Z) :=
  let out p := Ok (p_exposed p, p_acquired p) in
  if is_chi c then out (pattern_chi c)
  else if is_pon c then out (pattern_pon c)
  else if is_kakan c then out (pattern_kakan c)
  else if is_minkan c then out (pattern_minkan c)
  else if is_ankan c then out (pattern_ankan c)
  else Err ValueError.

(** draw.py:217-233 *)
Definition get_during_turn_filter_idx (c : Z) : res Z :=
  if is_ankan c then let p := pattern_ankan c in Ok (3 + 9 * p_color p + p_number p)
  else if is_kakan c then let p := pattern_kakan c in Ok (37 + 9 * p_color p + p_number p)
  else Err ZeroDivisionError.

(** draw.py:235-266 *)
Definition get_post_turn_filter_idx (c : Z) : res Z :=
  if is_chi c then
    let p := pattern_chi c in
    if p_red p && negb (p_number p + p_which p =? 4)
    then Ok (2 + 63 + 6 * p_color p + p_number p * 2 + (p_number p + p_which p - 3) / 2)
    else Ok (2 + p_color p * 21 + p_number p * 3 + p_which p)
  else if is_pon c then
    let p := pattern_pon c in
    if p_color p =? 3 then Ok (83 + 30 + p_number p)
    else if p_red p && (match p_acquired p with Some a => a mod 4 =? 3 | None => false end)
    then Ok (83 + 27 + p_color p)
    else Ok (83 + 9 * p_color p + p_number p)
  else if is_minkan c then
    let p := pattern_minkan c in Ok (120 + 9 * p_color p + p_number p)
  else Err ZeroDivisionError.
