(** Decimal numerals, independent of the program and of the functions of Go's package strconv. *)
From Verif Require Import Base Utf8.

Definition digit (c : ascii) : Prop := (48 <= vb c <= 57)%N.

(** A non-empty row of decimal digits and its value. *)
Definition digits_of (s : bytes) (n : N) : Prop :=
  s <> [] /\ Forall digit s /\ fold_left (fun n c => (n * 10 + (vb c - 48))%N) s 0%N = n.

(** A decimal numeral with an optional sign. *)
Definition numeral (s : bytes) (z : Z) : Prop :=
  exists ds n, digits_of ds n /\
    (((s = ds \/ s = "+"%char :: ds) /\ z = Z.of_N n) \/ (s = "-"%char :: ds /\ z = (- Z.of_N n)%Z)).

(** The usual way to write a natural number: digits, and no zero before the first other one. *)
Definition usual_numeral (s : bytes) (n : N) : Prop := digits_of s n /\ (forall s', s = "0"%char :: s' -> s' = []).
