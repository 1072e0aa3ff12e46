(** float64 values that encoding/json can produce, conversion from decimal text
    (strconv.ParseFloat), truncation to int64 and fmt.Sprint.
    Standard library, not part of /repo; used at itemrepo.go:117-118,
    profilerepo.go:25 and itemservice.go:174. *)
From Verif Require Import Base Utf8 GoStrings.

(** A finite float64: sign and either zero or [m * 2^e] with [m] odd.  The odd
    mantissa makes the representation unique. *)
Record f64 := F64 { f_neg : bool; f_man : N; f_exp : Z }.

Definition f64_zero (neg : bool) : f64 := F64 neg 0 0.

(** Remove factors of two from the mantissa. *)
Fixpoint strip2 (p : positive) (e : Z) : N * Z :=
  match p with
  | xO p' => strip2 p' (e + 1)
  | _ => (Npos p, e)
  end.

Definition mk_f64 (neg : bool) (m : N) (e : Z) : f64 :=
  match m with
  | N0 => f64_zero neg
  | Npos p => let (m', e') := strip2 p e in F64 neg m' e'
  end.

(** Division rounded to nearest, ties to even. *)
Definition round_div (num den : N) : N :=
  let q := (num / den)%N in
  let r := (num mod den)%N in
  if (2 * r <? den)%N then q
  else if (den <? 2 * r)%N then (q + 1)%N
  else if N.even q then q else (q + 1)%N.

Definition pow2 (k : Z) : N := N.shiftl 1 (Z.to_N k).
Definition pow10 (k : Z) : N := (10 ^ Z.to_N k)%N.

(** Floor of the binary logarithm of the fraction [num/den]. *)
Definition flog2 (num den : N) : Z :=
  let l := (Z.of_N (N.log2 num) - Z.of_N (N.log2 den))%Z in
  if (if (0 <=? l)%Z then (den * pow2 l <=? num)%N else (den <=? num * pow2 (- l))%N)
  then l else (l - 1)%Z.

(** The float64 nearest to [num/den]; [None] on overflow. *)
Definition round_f64 (neg : bool) (num den : N) : option f64 :=
  if (num =? 0)%N then Some (f64_zero neg)
  else
    let k := Z.max (-1074) (flog2 num den - 52) in
    let q :=
      if (0 <=? k)%Z then round_div num (den * pow2 k)
      else round_div (num * pow2 (- k)) den in
    if (971 <? k)%Z || ((971 =? k)%Z && (9007199254740992 <=? q)%N) then None
    else Some (mk_f64 neg q k).

(** strconv.ParseFloat of the decimal [m * 10^e]. *)
Definition of_dec (neg : bool) (m : N) (e : Z) : option f64 :=
  if (0 <=? e)%Z then round_f64 neg (m * pow10 e) 1
  else round_f64 neg m (pow10 (- e)).

(** The value as a fraction. *)
Definition f_num (f : f64) : N :=
  if (0 <=? f_exp f)%Z then (f_man f * pow2 (f_exp f))%N else f_man f.
Definition f_den (f : f64) : N :=
  if (0 <=? f_exp f)%Z then 1%N else pow2 (- f_exp f).

(** Go's int64(x) (and int(x)) for a float64: truncation; out of range values
    give the minimum, as on amd64. *)
Definition f64_to_int64 (f : f64) : Z :=
  let a := Z.of_N (f_num f / f_den f) in
  let z := if f_neg f then (- a)%Z else a in
  if ((min_int64 <=? z) && (z <=? max_int64))%Z then z else min_int64.

(** ** fmt.Sprint, i.e. strconv.FormatFloat(x, 'g', -1, 64): the shortest digits
    that read back as x, in %e form for decimal exponents < -4 or >= 6. *)

(** Number of decimal digits before the point (minus the number of zeros after
    it for values below 1). *)
Fixpoint lead_zeros (fuel : nat) (num den : N) : Z :=
  match fuel with
  | 0 => 0%Z
  | S f => if (den <=? num * 10)%N then 0%Z else (lead_zeros f (num * 10) den - 1)%Z
  end.

Definition dec_exp (num den : N) : Z :=
  if (den <=? num)%N then Z.of_nat (length (dec_of_N (num / den)))
  else lead_zeros 400 num den.

(** The decimal with [n] significant digits nearest to [num/den]:
    [d * 10^x]. *)
Definition cand (num den : N) (L : Z) (n : nat) : N * Z :=
  let x := (L - Z.of_nat n)%Z in
  if (0 <=? x)%Z then (round_div num (den * pow10 x), x)
  else (round_div (num * pow10 (- x)) den, x).

Definition f64_eqb (f g : f64) : bool :=
  Bool.eqb (f_neg f) (f_neg g) && (f_man f =? f_man g)%N && (f_exp f =? f_exp g)%Z.

Fixpoint shortest_loop (fuel n : nat) (f : f64) (L : Z) : N * Z :=
  let c := cand (f_num f) (f_den f) L n in
  match fuel with
  | 0 => c
  | S fuel' =>
      match of_dec (f_neg f) (fst c) (snd c) with
      | Some g => if f64_eqb f g then c else shortest_loop fuel' (S n) f L
      | None => shortest_loop fuel' (S n) f L
      end
  end.

(** Remove trailing decimal zeros. *)
Fixpoint strip10 (fuel : nat) (d : N) (x : Z) : N * Z :=
  match fuel with
  | 0 => (d, x)
  | S f => if ((d mod 10 =? 0) && negb (d =? 0))%N then strip10 f (d / 10) (x + 1) else (d, x)
  end.

(** Shortest decimal [d * 10^x] that reads back as [f] (17 digits always do). *)
Definition shortest (f : f64) : N * Z :=
  let L := dec_exp (f_num f) (f_den f) in
  let (d, x) := shortest_loop 16 1 f L in
  strip10 20 d x.

Definition exp_digits (n : N) : bytes :=
  if (n <? 10)%N then "0"%char :: dec_of_N n else dec_of_N n.

(** %e *)
Definition fmt_e (d : N) (e10 : Z) : bytes :=
  match dec_of_N d with
  | [] => []
  | c :: rest =>
      c :: (match rest with [] => [] | _ => "."%char :: rest end)
      ++ ["e"%char; if (e10 <? 0)%Z then "-"%char else "+"%char]
      ++ exp_digits (Z.to_N (Z.abs e10))
  end.

(** %f *)
Definition fmt_f (d : N) (x : Z) : bytes :=
  if (0 <=? x)%Z then dec_of_N (d * pow10 x)
  else
    let ds := dec_of_N d in
    let k := Z.to_nat (- x) in
    if k <? length ds then
      firstn (length ds - k) ds ++ "."%char :: skipn (length ds - k) ds
    else b "0." ++ repeat "0"%char (k - length ds) ++ ds.

Definition f64_sprint (f : f64) : bytes :=
  let body :=
    if (f_man f =? 0)%N then b "0"
    else
      let (d, x) := shortest f in
      let e10 := (Z.of_nat (length (dec_of_N d)) + x - 1)%Z in
      if ((e10 <? -4) || (6 <=? e10))%Z then fmt_e d e10 else fmt_f d x in
  if f_neg f then "-"%char :: body else body.
