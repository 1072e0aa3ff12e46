(** The functions of Go's strings, strconv, encoding/hex and fmt packages that
    the program calls (standard library, not part of /repo).

    Case mapping and classification of runes >= 128 are taken from an oracle
    record [unicode]: the Unicode tables are not part of the program. *)
From Verif Require Import Base Utf8.

(** Unicode tables, consulted for runes >= 128 only. *)
Record unicode := {
  u_lower : rune -> rune;          (* unicode.ToLower *)
  u_title : rune -> rune;          (* unicode.ToTitle *)
  u_alnum : rune -> bool;          (* unicode.IsLetter || unicode.IsDigit *)
}.

(** ** Runes *)

Definition is_upper_ascii (r : rune) : bool := in_range 65 90 r.
Definition is_lower_ascii (r : rune) : bool := in_range 97 122 r.
Definition is_digit_rune (r : rune) : bool := in_range 48 57 r.

(** unicode.ToLower *)
Definition rune_lower (U : unicode) (r : rune) : rune :=
  if (r <? 128)%N then (if is_upper_ascii r then r + 32 else r)%N
  else u_lower U r.

(** unicode.ToTitle *)
Definition rune_title (U : unicode) (r : rune) : rune :=
  if (r <? 128)%N then (if is_lower_ascii r then r - 32 else r)%N
  else u_title U r.

(** unicode.IsSpace (the Unicode White_Space property; fmt uses the same set). *)
Definition is_space (r : rune) : bool :=
  (in_range 9 13 r || (r =? 32) || (r =? 133) || (r =? 160) || (r =? 5760)
   || in_range 8192 8202 r || (r =? 8232) || (r =? 8233) || (r =? 8239)
   || (r =? 8287) || (r =? 12288))%N.

(** strings.isSeparator *)
Definition is_separator (U : unicode) (r : rune) : bool :=
  if (r <? 128)%N then
    negb (is_digit_rune r || is_lower_ascii r || is_upper_ascii r || (r =? 95)%N)
  else if u_alnum U r then false else is_space r.

(** ** strings *)

(** strings.Map with a mapping that never drops a rune. *)
Definition map_runes (f : rune -> rune) (s : bytes) : bytes :=
  utf8_encode (map f (utf8_decode s)).

(** strings.ToLower *)
Definition to_lower (U : unicode) (s : bytes) : bytes := map_runes (rune_lower U) s.

(** strings.Title: [prev] is the previous rune before mapping. *)
Fixpoint title_runes (U : unicode) (prev : rune) (rs : list rune) : list rune :=
  match rs with
  | [] => []
  | r :: rs' =>
      (if is_separator U prev then rune_title U r else r) :: title_runes U r rs'
  end.

Definition title (U : unicode) (s : bytes) : bytes :=
  utf8_encode (title_runes U 32%N (utf8_decode s)).

(** Width in bytes of the white-space rune at the start of [s], 0 if none. *)
Definition space_width (s : bytes) : nat :=
  match s with
  | [] => 0
  | c0 :: s1 =>
      if is_space (vb c0) && (vb c0 <? 128)%N then 1
      else
        match s1 with
        | [] => 0
        | c1 :: s2 =>
            if ok2 c0 c1 && is_space (rune2 c0 c1) then 2
            else
              match s2 with
              | [] => 0
              | c2 :: _ => if ok3 c0 c1 c2 && is_space (rune3 c0 c1 c2) then 3 else 0
              end
        end
  end.

(** Same for the end of a string, given reversed. *)
Definition space_width_rev (s : bytes) : nat :=
  match s with
  | [] => 0
  | c0 :: s1 =>
      if is_space (vb c0) && (vb c0 <? 128)%N then 1
      else
        match s1 with
        | [] => 0
        | c1 :: s2 =>
            if ok2 c1 c0 && is_space (rune2 c1 c0) then 2
            else
              match s2 with
              | [] => 0
              | c2 :: _ => if ok3 c2 c1 c0 && is_space (rune3 c2 c1 c0) then 3 else 0
              end
        end
  end.

(** Drop leading units recognised by [w]; [skip] bytes are still to be dropped. *)
Fixpoint drop_units (w : bytes -> nat) (skip : nat) (s : bytes) : bytes :=
  match s with
  | [] => []
  | _ :: s' =>
      match skip with
      | S k => drop_units w k s'
      | 0 =>
          match w s with
          | 0 => s
          | S k => drop_units w k s'
          end
      end
  end.

(** strings.TrimSpace *)
Definition trim_space (s : bytes) : bytes :=
  rev (drop_units space_width_rev 0 (rev (drop_units space_width 0 s))).

(** strings.Fields. [cur] is the field being collected, reversed. *)
Fixpoint fields_aux (skip : nat) (cur : bytes) (s : bytes) : list bytes :=
  match s with
  | [] => match cur with [] => [] | _ => [rev cur] end
  | c :: s' =>
      match skip with
      | S k => fields_aux k cur s'
      | 0 =>
          match space_width s with
          | 0 => fields_aux 0 (c :: cur) s'
          | S k =>
              match cur with
              | [] => fields_aux k [] s'
              | _ => rev cur :: fields_aux k [] s'
              end
          end
      end
  end.

Definition fields (s : bytes) : list bytes := fields_aux 0 [] s.

(** strings.HasPrefix and strings.Contains *)
Fixpoint has_prefix (p s : bytes) : bool :=
  match p, s with
  | [], _ => true
  | c :: p', d :: s' => Ascii.eqb c d && has_prefix p' s'
  | _ :: _, [] => false
  end.

Fixpoint contains (s sub : bytes) : bool :=
  has_prefix sub s ||
  match s with
  | [] => false
  | _ :: s' => contains s' sub
  end.

(** strings.ReplaceAll with a one-byte pattern. *)
Definition replace_byte (c : ascii) (by_ : bytes) (s : bytes) : bytes :=
  flat_map (fun x => if Ascii.eqb x c then by_ else [x]) s.

(** ** strconv and fmt *)

Definition digit_char (d : N) : ascii := bv (48 + d).
Definition is_digit (c : ascii) : bool := in_range 48 57 (vb c).
Definition digit_val (c : ascii) : N := (vb c - 48)%N.

(** Decimal digits of a natural number, most significant first. *)
Fixpoint dec_fuel (fuel : nat) (n : N) : bytes :=
  match fuel with
  | 0 => []
  | S f =>
      if (n <? 10)%N then [digit_char n]
      else dec_fuel f (n / 10) ++ [digit_char (n mod 10)]
  end.

Definition dec_of_N (n : N) : bytes := dec_fuel (S (N.size_nat n)) n.

(** fmt.Sprint of an int or int64, and %d. *)
Definition itoa (z : Z) : bytes :=
  if (z <? 0)%Z then "-"%char :: dec_of_N (Z.to_N (- z)) else dec_of_N (Z.to_N z).

Definition max_int64 : Z := 9223372036854775807%Z.
Definition min_int64 : Z := (-9223372036854775808)%Z.

Inductive parse_status := PFine | PSyntax | PRange.

(** The loop of strconv.ParseUint(s, 10, 64). *)
Fixpoint parse_uint_loop (n : N) (s : bytes) : N * parse_status :=
  match s with
  | [] => (n, PFine)
  | c :: s' =>
      if negb (is_digit c) then (0%N, PSyntax)
      else if (1844674407370955162 <=? n)%N then (18446744073709551615%N, PRange)
      else
        let n' := (n * 10 + digit_val c)%N in
        if (18446744073709551615 <? n')%N then (18446744073709551615%N, PRange)
        else parse_uint_loop n' s'
  end.

Definition parse_uint (s : bytes) : N * parse_status :=
  match s with
  | [] => (0%N, PSyntax)
  | _ => parse_uint_loop 0 s
  end.

(** strconv.ParseInt(s, 10, 64): the value and whether the error is nil. *)
Definition parse_int (s : bytes) : Z * bool :=
  match s with
  | [] => (0%Z, false)
  | c :: s' =>
      let neg := Ascii.eqb c "-"%char in
      let digits := if neg || Ascii.eqb c "+"%char then s' else s in
      let (un, st) := parse_uint digits in
      match st with
      | PSyntax => (0%Z, false)
      | _ =>
          if negb neg && (9223372036854775808 <=? un)%N then (max_int64, false)
          else if neg && (9223372036854775808 <? un)%N then (min_int64, false)
          else ((if neg then - Z.of_N un else Z.of_N un)%Z,
                match st with PFine => true | _ => false end)
      end
  end.

(** ** encoding/hex *)

Definition hex_char (n : N) : ascii :=
  if (n <? 10)%N then bv (48 + n) else bv (87 + n).

Definition hex_encode (s : bytes) : bytes :=
  flat_map (fun c => [hex_char (vb c / 16); hex_char (vb c mod 16)]) s.

(** ** fmt.Scanln(&s) on standard input, given as the runes still unread.

    Result: the value of [s] afterwards (it was "" before) and the rest of the
    input.  The returned error is ignored by every caller in /repo. *)

(** SkipSpace: [None] if a newline was met first (it is consumed). *)
Fixpoint scan_skip (rs : list rune) : option (list rune) * list rune :=
  match rs with
  | [] => (Some [], [])
  | r :: rs' =>
      if (r =? 10)%N then (None, rs')
      else if is_space r then scan_skip rs'
      else (Some rs, rs)
  end.

Fixpoint scan_token (rs : list rune) : list rune * list rune :=
  match rs with
  | [] => ([], [])
  | r :: rs' =>
      if is_space r then ([], rs)
      else let (t, rest) := scan_token rs' in (r :: t, rest)
  end.

(** Consume up to the end of the line; stop after the first other rune. *)
Fixpoint scan_eol (rs : list rune) : list rune :=
  match rs with
  | [] => []
  | r :: rs' =>
      if (r =? 10)%N then rs'
      else if is_space r then scan_eol rs'
      else rs'
  end.

Definition scanln (rs : list rune) : bytes * list rune :=
  match scan_skip rs with
  | (None, rest) => ([], rest)
  | (Some [], rest) => ([], [])
  | (Some rs', _) => let (t, rest) := scan_token rs' in (utf8_encode t, scan_eol rest)
  end.

(** Laws of the Unicode tables that some theorems assume. *)
Record unicode_ok (U : unicode) : Prop := {
  ul_valid : forall r, valid_rune r = true -> valid_rune (u_lower U r) = true;
  ul_idem : forall r, (128 <= r)%N -> rune_lower U (u_lower U r) = u_lower U r;
  (* only U+0130 and U+212A have an ASCII lower-case form: i and k *)
  ul_ascii : forall r, (128 <= r)%N -> (u_lower U r < 128)%N ->
             u_lower U r = 105%N \/ u_lower U r = 107%N;
  ut_valid : forall r, valid_rune r = true -> valid_rune (u_title U r) = true;
  ut_idem : forall r, (128 <= r)%N -> rune_title U (u_title U r) = u_title U r;
  ut_sep : forall r, (128 <= r)%N ->
           is_separator U (u_title U r) = is_separator U r;
}.

(** A concrete table: Latin-1 letters, U+0130, U+0131, U+017F and U+212A. *)
Definition latin1 : unicode := {|
  u_lower r :=
    if in_range 192 222 r && negb (r =? 215)%N then (r + 32)%N
    else if (r =? 304)%N then 105%N
    else if (r =? 8490)%N then 107%N else r;
  u_title r :=
    if in_range 224 254 r && negb (r =? 247)%N then (r - 32)%N
    else if (r =? 305)%N then 73%N
    else if (r =? 383)%N then 83%N else r;
  u_alnum r := in_range 192 214 r || in_range 216 246 r || in_range 248 255 r
               || (r =? 304)%N || (r =? 305)%N || (r =? 383)%N || (r =? 8490)%N;
|}.
