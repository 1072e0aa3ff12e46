(** Specification of JSON texts (RFC 8259), independent of the parser: which
    texts denote which values, with arbitrary white space, escapes, number
    formats and repeated keys (the last one counts). *)
From Verif Require Import Base Utf8 GoStrings Float64 Json.

Definition wsp (w : bytes) : Prop :=
  Forall (fun c => In c [" "%char; "009"%char; "010"%char; "013"%char]) w.

Definition quote : ascii := """"%char.

(** A hexadecimal digit in either case. *)
Definition hex_digit (c : ascii) (n : nat) : Prop :=
  nth_error (b "0123456789abcdef") n = Some c \/
  nth_error (b "0123456789ABCDEF") n = Some c.

Definition hex4 (t : bytes) (u : N) : Prop :=
  exists c1 c2 c3 c4 n1 n2 n3 n4,
    t = [c1; c2; c3; c4] /\ hex_digit c1 n1 /\ hex_digit c2 n2 /\
    hex_digit c3 n3 /\ hex_digit c4 n4 /\
    u = (4096 * N.of_nat n1 + 256 * N.of_nat n2 + 16 * N.of_nat n3 + N.of_nat n4)%N.

(** The two-character escapes. *)
Definition escapes : list (ascii * N) :=
  [("""", 34); ("\", 92); ("/", 47); ("b", 8); ("f", 12); ("n", 10); ("r", 13); ("t", 9)]%char%N.

(** [str_text rs t]: [t] may stand between quotes for the text [rs]. *)
Inductive str_text : list rune -> bytes -> Prop :=
| st_nil : str_text [] []
| st_raw r rs t :
    valid_rune r = true -> (32 <= r)%N -> r <> 34%N -> r <> 92%N ->
    str_text rs t -> str_text (r :: rs) (enc_rune r ++ t)
| st_esc c r rs t :
    In (c, r) escapes -> str_text rs t -> str_text (r :: rs) ("\"%char :: c :: t)
| st_u r h rs t :
    hex4 h r -> valid_rune r = true -> str_text rs t ->
    str_text (r :: rs) ("\"%char :: "u"%char :: h ++ t)
| st_pair r h l rs t :
    valid_rune r = true -> (65536 <= r)%N ->
    hex4 h (55296 + (r - 65536) / 1024) -> hex4 l (56320 + (r - 65536) mod 1024) ->
    str_text rs t ->
    str_text (r :: rs) (b "\u" ++ h ++ b "\u" ++ l ++ t).

Definition all_digits (ds : bytes) : Prop := Forall (fun c => is_digit c = true) ds.

(** An integer part: no leading zero unless it is just 0. *)
Definition int_part (ip : bytes) : Prop :=
  all_digits ip /\ (ip = ["0"%char] \/ exists c r, ip = c :: r /\ c <> "0"%char).

Inductive frac_text : bytes -> bytes -> Prop :=
| ft_none : frac_text [] []
| ft_some ds : all_digits ds -> ds <> [] -> frac_text ds ("."%char :: ds).

Inductive exp_text : Z -> bytes -> Prop :=
| xt_none : exp_text 0 []
| xt_plain c ds :
    In c ["e"; "E"]%char -> all_digits ds -> ds <> [] ->
    exp_text (Z.of_N (digits_val ds)) (c :: ds)
| xt_plus c ds :
    In c ["e"; "E"]%char -> all_digits ds -> ds <> [] ->
    exp_text (Z.of_N (digits_val ds)) (c :: "+"%char :: ds)
| xt_minus c ds :
    In c ["e"; "E"]%char -> all_digits ds -> ds <> [] ->
    exp_text (- Z.of_N (digits_val ds)) (c :: "-"%char :: ds).

(** [num_text f t]: [t] is a number literal whose nearest float64 is [f]. *)
Inductive num_text : f64 -> bytes -> Prop :=
| nt_intro (neg : bool) ip fp ft e et f :
    int_part ip -> frac_text fp ft -> exp_text e et ->
    of_dec neg (digits_val (ip ++ fp)) (e - Z.of_nat (length fp)) = Some f ->
    num_text f ((if neg then ["-"%char] else []) ++ ip ++ ft ++ et).

(** The map an object with these members, in this order, denotes. *)
Definition obj_of (ms : list (bytes * json)) : gmap json :=
  fold_left (fun m kv => mset (fst kv) (snd kv) m) ms [].

(** [json_text n v t]: [t] is a text of the value [v], nested at most [n]
    levels deep, without surrounding white space. *)
Inductive json_text : nat -> json -> bytes -> Prop :=
| jt_null n : json_text n JNull (b "null")
| jt_true n : json_text n (JBool true) (b "true")
| jt_false n : json_text n (JBool false) (b "false")
| jt_num n f t : num_text f t -> json_text n (JNum f) t
| jt_str n rs t : str_text rs t -> json_text n (JStr (utf8_encode rs)) (quote :: t ++ [quote])
| jt_arr0 n w : wsp w -> json_text (S n) (JArr []) ("["%char :: w ++ ["]"%char])
| jt_arr n l t : elems_text n l t -> json_text (S n) (JArr l) ("["%char :: t ++ ["]"%char])
| jt_obj0 n w : wsp w -> json_text (S n) (JObj []) ("{"%char :: w ++ ["}"%char])
| jt_obj n ms t :
    members_text n ms t -> json_text (S n) (JObj (obj_of ms)) ("{"%char :: t ++ ["}"%char])
with elems_text : nat -> list json -> bytes -> Prop :=
| et_one n w1 v t w2 :
    wsp w1 -> json_text n v t -> wsp w2 -> elems_text n [v] (w1 ++ t ++ w2)
| et_cons n w1 v t w2 l t' :
    wsp w1 -> json_text n v t -> wsp w2 -> elems_text n l t' ->
    elems_text n (v :: l) (w1 ++ t ++ w2 ++ ","%char :: t')
with members_text : nat -> list (bytes * json) -> bytes -> Prop :=
| mt_one n w1 k kt w2 w3 v t w4 :
    wsp w1 -> str_text k kt -> wsp w2 -> wsp w3 -> json_text n v t -> wsp w4 ->
    members_text n [(utf8_encode k, v)]
      (w1 ++ quote :: kt ++ quote :: w2 ++ ":"%char :: w3 ++ t ++ w4)
| mt_cons n w1 k kt w2 w3 v t w4 ms t' :
    wsp w1 -> str_text k kt -> wsp w2 -> wsp w3 -> json_text n v t -> wsp w4 ->
    members_text n ms t' ->
    members_text n ((utf8_encode k, v) :: ms)
      (w1 ++ quote :: kt ++ quote :: w2 ++ ":"%char :: w3 ++ t ++ w4 ++ ","%char :: t').

(** A whole document: a value of nesting depth at most 10000 (the limit of
    encoding/json) with white space around it. *)
Definition json_doc (v : json) (s : bytes) : Prop :=
  exists n w1 t w2, (N.of_nat n <= 10000)%N /\ wsp w1 /\ json_text n v t /\ wsp w2 /\
                    s = w1 ++ t ++ w2.

Scheme json_text_mut := Minimality for json_text Sort Prop
with elems_text_mut := Minimality for elems_text Sort Prop
with members_text_mut := Minimality for members_text Sort Prop.
Combined Scheme json_text_all from json_text_mut, elems_text_mut, members_text_mut.

(** A printer, to show that every value of the form a vault contains has a
    text. *)
Definition hexn (n : N) : ascii :=
  match nth_error (b "0123456789abcdef") (N.to_nat n) with Some c => c | None => "0"%char end.

Definition print_rune (r : rune) : bytes :=
  if (r =? 34)%N then b "\""" else if (r =? 92)%N then b "\\"
  else if (r <? 32)%N then b "\u00" ++ [hexn (r / 16); hexn (r mod 16)]
  else enc_rune r.

Definition print_str (s : bytes) : bytes :=
  quote :: flat_map print_rune (utf8_decode s) ++ [quote].
