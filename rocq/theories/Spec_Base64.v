(** RFC 4648 base64 encoder with padding, written independently of the decoder. *)
From Verif Require Import Base.

Definition b64_alphabet : bytes :=
  b "ABCDEFGHIJKLMNOPQRSTUVWXYZabcdefghijklmnopqrstuvwxyz0123456789+/".

Definition b64_char (n : N) : ascii := nth (N.to_nat n) b64_alphabet "A"%char.

Fixpoint b64_encode (s : bytes) : bytes :=
  match s with
  | [] => []
  | [x] =>
      [b64_char (vb x / 4); b64_char (vb x mod 4 * 16); "="%char; "="%char]
  | [x; y] =>
      [b64_char (vb x / 4); b64_char (vb x mod 4 * 16 + vb y / 16);
       b64_char (vb y mod 16 * 4); "="%char]
  | x :: y :: z :: s' =>
      b64_char (vb x / 4) :: b64_char (vb x mod 4 * 16 + vb y / 16) ::
      b64_char (vb y mod 16 * 4 + vb z / 64) :: b64_char (vb z mod 64) ::
      b64_encode s'
  end.

(** [wrapped t s]: [t] is [s] with line breaks (CR, LF) inserted anywhere. *)
Inductive wrapped : bytes -> bytes -> Prop :=
| wrapped_nil : wrapped [] []
| wrapped_char c t s : wrapped t s -> wrapped (c :: t) (c :: s)
| wrapped_lf t s : wrapped t s -> wrapped (ascii_of_nat 10 :: t) s
| wrapped_cr t s : wrapped t s -> wrapped (ascii_of_nat 13 :: t) s.
