(** encoding/base64, StdEncoding.DecodeString (standard library; called by
    keyservice.go:111,123,131,141 and itemservice.go:40,120). *)
From Verif Require Import Base Utf8.

(** Value of a character of the standard alphabet. *)
Definition b64_val (c : ascii) : option N :=
  let n := vb c in
  if in_range 65 90 n then Some (n - 65)%N
  else if in_range 97 122 n then Some (n - 71)%N
  else if in_range 48 57 n then Some (n + 4)%N
  else if (n =? 43)%N then Some 62%N
  else if (n =? 47)%N then Some 63%N
  else None.

Definition is_nl (c : ascii) : bool := (vb c =? 10)%N || (vb c =? 13)%N.

Definition is_pad (c : ascii) : bool := (vb c =? 61)%N.

Fixpoint skip_nl (s : bytes) : bytes :=
  match s with
  | [] => []
  | c :: s' => if is_nl c then skip_nl s' else s
  end.

(** The three bytes of a quantum of four sextets. *)
Definition q3 (x y z w : N) : bytes :=
  let v := (x * 262144 + y * 4096 + z * 64 + w)%N in
  [bv (v / 65536); bv (v / 256 mod 256); bv (v mod 256)].

Definition is_nil {A} (l : list A) : bool := match l with [] => true | _ => false end.

(** Decode loop: [acc] holds the sextets of the current quantum.  The result is
    the decoded prefix and whether the returned error is nil.  When the input is
    corrupt the bytes of the complete quanta before it are still returned;
    garbage after the final padding is an error but the last quantum counts.
    Line breaks are skipped; trailing bits are not checked (non-strict). *)
Fixpoint b64_loop (acc : list N) (s : bytes) : bytes * bool :=
  match s with
  | [] => ([], is_nil acc)
  | c :: s' =>
      if is_nl c then b64_loop acc s'
      else
        match b64_val c with
        | Some v =>
            match acc with
            | [x; y; z] => let (r, ok) := b64_loop [] s' in (q3 x y z v ++ r, ok)
            | _ => b64_loop (acc ++ [v]) s'
            end
        | None =>
            if is_pad c then
              match acc with
              | [x; y] =>
                  match skip_nl s' with
                  | [] => ([], false)
                  | d :: s2 =>
                      if is_pad d then (firstn 1 (q3 x y 0 0), is_nil (skip_nl s2))
                      else ([], false)
                  end
              | [x; y; z] => (firstn 2 (q3 x y z 0), is_nil (skip_nl s'))
              | _ => ([], false)
              end
            else ([], false)
        end
  end.

Definition b64_decode (s : bytes) : bytes * bool := b64_loop [] s.

(** Capacity of the returned slice: DecodedLen(len(s)) = len(s)/4*3; the bytes
    between the length and the capacity are zero. *)
Definition b64_cap (s : bytes) : nat := length s / 4 * 3.
