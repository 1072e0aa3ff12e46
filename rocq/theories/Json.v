(** encoding/json (standard library, not part of /repo): json.Unmarshal of a text into
    an interface{} or a map[string]interface{}.  Used at itemrepo.go:111,
    profilerepo.go:48, itemservice.go:43,122 and updater.go:66. *)
From Verif Require Import Base Utf8 GoStrings Float64.

(** A decoded interface{} value.  Objects are Go maps: unique keys, order of
    no meaning. *)
Inductive json : Type :=
| JNull
| JBool (v : bool)
| JNum (f : f64)
| JStr (s : bytes)
| JArr (l : list json)
| JObj (m : list (bytes * json)).

(** ** Lexical level *)

(** scanner.go isSpace. *)
Definition is_jws (c : ascii) : bool :=
  let v := vb c in ((v =? 32) || (v =? 9) || (v =? 13) || (v =? 10))%N.

Fixpoint skip_ws (s : bytes) : bytes :=
  match s with
  | c :: s' => if is_jws c then skip_ws s' else s
  | [] => []
  end.

Definition hex_val (c : ascii) : option N :=
  let v := vb c in
  if in_range 48 57 v then Some (v - 48)%N
  else if in_range 65 70 v then Some (v - 55)%N
  else if in_range 97 102 v then Some (v - 87)%N
  else None.

(** One unit of a string literal: a raw byte or an escape. *)
Inductive sunit : Type := Raw (c : ascii) | Esc (u : N).

Definition simple_escape (c : ascii) : option N :=
  let v := vb c in
  if (v =? 34)%N then Some 34%N        (* quote *)
  else if (v =? 92)%N then Some 92%N   (* backslash *)
  else if (v =? 47)%N then Some 47%N   (* slash *)
  else if (v =? 98)%N then Some 8%N    (* b *)
  else if (v =? 102)%N then Some 12%N  (* f *)
  else if (v =? 110)%N then Some 10%N  (* n *)
  else if (v =? 114)%N then Some 13%N  (* r *)
  else if (v =? 116)%N then Some 9%N   (* t *)
  else None.

(** The units of a string literal after its opening quote, and what follows
    the closing quote.  scanner.go stateInString*. *)
Fixpoint pstring (s : bytes) : option (list sunit * bytes) :=
  match s with
  | [] => None
  | c :: s1 =>
      if (vb c =? 34)%N then Some ([], s1)
      else if (vb c =? 92)%N then
        match s1 with
        | [] => None
        | e :: s2 =>
            if (vb e =? 117)%N then
              match s2 with
              | h1 :: h2 :: h3 :: h4 :: s3 =>
                  match hex_val h1, hex_val h2, hex_val h3, hex_val h4 with
                  | Some a1, Some a2, Some a3, Some a4 =>
                      match pstring s3 with
                      | Some (us, r) =>
                          Some (Esc (((a1 * 16 + a2) * 16 + a3) * 16 + a4)%N :: us, r)
                      | None => None
                      end
                  | _, _, _, _ => None
                  end
              | _ => None
              end
            else
              match simple_escape e with
              | Some u =>
                  match pstring s2 with
                  | Some (us, r) => Some (Esc u :: us, r)
                  | None => None
                  end
              | None => None
              end
        end
      else if (vb c <? 32)%N then None
      else
        match pstring s1 with
        | Some (us, r) => Some (Raw c :: us, r)
        | None => None
        end
  end.

(** utf16.IsSurrogate and utf16.DecodeRune. *)
Definition is_surrogate (u : N) : bool := in_range 55296 57343 u.
Definition is_pair (u1 u2 : N) : bool := in_range 55296 56319 u1 && in_range 56320 57343 u2.
Definition pair_rune (u1 u2 : N) : N := ((u1 - 55296) * 1024 + (u2 - 56320) + 65536)%N.

(** Invalid UTF-8 is replaced by U+FFFD. *)
Definition sanitize (s : bytes) : bytes := utf8_encode (utf8_decode s).

(** decode.go unquoteBytes; [run] is the reversed run of raw bytes before [us]. *)
Fixpoint unquote (us : list sunit) (run : bytes) : bytes :=
  match us with
  | [] => sanitize (rev run)
  | Raw c :: us' => unquote us' (c :: run)
  | Esc u :: us' =>
      sanitize (rev run) ++
      (if is_surrogate u then
         match us' with
         | Esc u2 :: us'' =>
             if is_pair u u2 then enc_rune (pair_rune u u2) ++ unquote us'' []
             else enc_rune rune_error ++ unquote us' []
         | _ => enc_rune rune_error ++ unquote us' []
         end
       else enc_rune u ++ unquote us' [])
  end.

Fixpoint take_digits (s : bytes) : bytes * bytes :=
  match s with
  | c :: s' =>
      if is_digit c then let (ds, r) := take_digits s' in (c :: ds, r) else ([], s)
  | [] => ([], [])
  end.

Definition digits_val (ds : bytes) : N :=
  fold_left (fun a c => (a * 10 + digit_val c)%N) ds 0%N.

(** Number literal (scanner.go state1, stateDot0, stateE ...): the float64, or
    None if it is out of range, and the remaining text. *)
Definition num_value (neg : bool) (ip fp : bytes) (e : Z) : option f64 :=
  of_dec neg (digits_val (ip ++ fp)) (e - Z.of_nat (length fp)).

Definition pexp (neg : bool) (ip fp s : bytes) : option (option f64 * bytes) :=
  match s with
  | c :: r =>
      if (vb c =? 101)%N || (vb c =? 69)%N then
        let (eneg, r1) :=
          match r with
          | c2 :: r2 => if (vb c2 =? 45)%N then (true, r2)
                        else if (vb c2 =? 43)%N then (false, r2) else (false, r)
          | [] => (false, r)
          end in
        let (es, r2) := take_digits r1 in
        match es with
        | [] => None
        | _ =>
            let e := Z.of_N (digits_val es) in
            Some (num_value neg ip fp (if eneg then - e else e)%Z, r2)
        end
      else Some (num_value neg ip fp 0, s)
  | [] => Some (num_value neg ip fp 0, s)
  end.

Definition pfrac (neg : bool) (ip s : bytes) : option (option f64 * bytes) :=
  match s with
  | c :: r =>
      if (vb c =? 46)%N then
        let (fp, r1) := take_digits r in
        match fp with [] => None | _ => pexp neg ip fp r1 end
      else pexp neg ip [] s
  | [] => pexp neg ip [] s
  end.

Definition puint (neg : bool) (s : bytes) : option (option f64 * bytes) :=
  match s with
  | c :: r =>
      if (vb c =? 48)%N then pfrac neg [c] r
      else if is_digit c then let (ip, r1) := take_digits s in pfrac neg ip r1
      else None
  | [] => None
  end.

Definition pnumber (s : bytes) : option (option f64 * bytes) :=
  match s with
  | c :: r => if (vb c =? 45)%N then puint true r else puint false s
  | [] => None
  end.

(** ** Values *)

(** Result of parsing: value, whether no number was out of range (Go reports
    such a number as an error and leaves nil in its place), remaining text. *)
Inductive jp : Type :=
| JOk (v : json) (fine : bool) (rest : bytes)
| JBad
| JFuel.

(** scanner.go maxNestingDepth. *)
Definition max_depth : N := 10000%N.

Fixpoint pvalue (fuel : nat) (d : N) (s : bytes) {struct fuel} : jp :=
  match fuel with
  | 0 => JFuel
  | S f =>
      match skip_ws s with
      | [] => JBad
      | c :: r =>
          if (vb c =? 123)%N then
            if (max_depth <=? d)%N then JBad
            else
              match skip_ws r with
              | [] => JBad
              | c' :: r' =>
                  if (vb c' =? 125)%N then JOk (JObj []) true r'
                  else pmembers f (d + 1) [] true (c' :: r')
              end
          else if (vb c =? 91)%N then
            if (max_depth <=? d)%N then JBad
            else
              match skip_ws r with
              | [] => JBad
              | c' :: r' =>
                  if (vb c' =? 93)%N then JOk (JArr []) true r'
                  else pelems f (d + 1) [] true (c' :: r')
              end
          else if (vb c =? 34)%N then
            match pstring r with
            | Some (us, r') => JOk (JStr (unquote us [])) true r'
            | None => JBad
            end
          else if has_prefix (b "true") (c :: r) then JOk (JBool true) true (skipn 4 (c :: r))
          else if has_prefix (b "false") (c :: r) then JOk (JBool false) true (skipn 5 (c :: r))
          else if has_prefix (b "null") (c :: r) then JOk JNull true (skipn 4 (c :: r))
          else
            match pnumber (c :: r) with
            | Some (Some x, r') => JOk (JNum x) true r'
            | Some (None, r') => JOk JNull false r'
            | None => JBad
            end
      end
  end
with pelems (fuel : nat) (d : N) (acc : list json) (fine : bool) (s : bytes)
  {struct fuel} : jp :=
  match fuel with
  | 0 => JFuel
  | S f =>
      match pvalue f d s with
      | JOk v fi r =>
          match skip_ws r with
          | c :: r' =>
              if (vb c =? 44)%N then pelems f d (v :: acc) (fine && fi) r'
              else if (vb c =? 93)%N then JOk (JArr (rev (v :: acc))) (fine && fi) r'
              else JBad
          | [] => JBad
          end
      | JBad => JBad
      | JFuel => JFuel
      end
  end
with pmembers (fuel : nat) (d : N) (acc : list (bytes * json)) (fine : bool) (s : bytes)
  {struct fuel} : jp :=
  match fuel with
  | 0 => JFuel
  | S f =>
      match skip_ws s with
      | q :: r0 =>
          if (vb q =? 34)%N then
            match pstring r0 with
            | Some (us, r1) =>
                match skip_ws r1 with
                | k :: r2 =>
                    if (vb k =? 58)%N then
                      match pvalue f d r2 with
                      | JOk v fi r3 =>
                          let acc' := mset (unquote us []) v acc in
                          match skip_ws r3 with
                          | c :: r4 =>
                              if (vb c =? 44)%N then pmembers f d acc' (fine && fi) r4
                              else if (vb c =? 125)%N then JOk (JObj acc') (fine && fi) r4
                              else JBad
                          | [] => JBad
                          end
                      | JBad => JBad
                      | JFuel => JFuel
                      end
                    else JBad
                | [] => JBad
                end
            | None => JBad
            end
          else JBad
      | [] => JBad
      end
  end.

(** json.Unmarshal into interface{}: the value left behind and whether the
    error is nil.  A syntax error leaves nothing behind. *)
Definition unmarshal (s : bytes) : option json * bool :=
  match pvalue (S (2 * length s)) 0 s with
  | JOk v fine r =>
      match skip_ws r with [] => (Some v, fine) | _ => (None, false) end
  | _ => (None, false)
  end.

(** json.Unmarshal into a nil map[string]interface{}: [None] is the nil map. A
    value of another type is an error and leaves the map nil; null is fine and
    leaves it nil. *)
Definition unmarshal_map (s : bytes) : option (gmap json) * bool :=
  match unmarshal s with
  | (Some (JObj m), fine) => (Some m, fine)
  | (Some JNull, fine) => (None, fine)
  | _ => (None, false)
  end.

(** Reading a key of a possibly nil map: a missing key reads as nil. *)
Definition jget (k : bytes) (m : option (gmap json)) : json :=
  match m with
  | Some m' => match mget k m' with Some v => v | None => JNull end
  | None => JNull
  end.

Definition jnil (v : json) : bool := match v with JNull => true | _ => false end.

(** Type assertions; they panic when the dynamic type differs. *)
Definition as_str (v : json) : res bytes := match v with JStr s => Ok s | _ => Panic end.
Definition as_bool (v : json) : res bool := match v with JBool x => Ok x | _ => Panic end.
Definition as_num (v : json) : res f64 := match v with JNum x => Ok x | _ => Panic end.
Definition as_arr (v : json) : res (list json) := match v with JArr l => Ok l | _ => Panic end.
Definition as_obj (v : json) : res (gmap json) := match v with JObj m => Ok m | _ => Panic end.

(** ** fmt.Sprint of a decoded value *)

Fixpoint insert_key {V} (k : bytes) (v : V) (m : gmap V) : gmap V :=
  match m with
  | [] => [(k, v)]
  | (k', v') :: m' =>
      if bytes_ltb k' k then (k', v') :: insert_key k v m' else (k, v) :: m
  end.

(** Map entries in key order (fmt sorts them since Go 1.12). *)
Definition sort_map {V} (m : gmap V) : gmap V :=
  fold_right (fun kv acc => insert_key (fst kv) (snd kv) acc) [] m.

Fixpoint join (sep : bytes) (l : list bytes) : bytes :=
  match l with
  | [] => []
  | [x] => x
  | x :: l' => x ++ sep ++ join sep l'
  end.

Fixpoint jsprint (v : json) : bytes :=
  match v with
  | JNull => b "<nil>"
  | JBool true => b "true"
  | JBool false => b "false"
  | JNum f => f64_sprint f
  | JStr s => s
  | JArr l => b "[" ++ join (b " ") (map jsprint l) ++ b "]"
  | JObj m =>
      let printed := map (fun kv : bytes * json => (fst kv, jsprint (snd kv))) m in
      b "map[" ++ join (b " ") (map (fun kv => fst kv ++ b ":" ++ snd kv) (sort_map printed)) ++ b "]"
  end.
