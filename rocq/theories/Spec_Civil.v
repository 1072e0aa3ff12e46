(** The proleptic Gregorian calendar, stated independently of the algorithm:
    which date a day number denotes. *)
From Verif Require Import Base.
Local Open Scope Z_scope.

Definition leap_year (y : Z) : Prop := (y mod 4 = 0 /\ y mod 100 <> 0) \/ y mod 400 = 0.

Definition leap_day (y : Z) : Z :=
  if (y mod 400 =? 0) || ((y mod 4 =? 0) && negb (y mod 100 =? 0)) then 1 else 0.

(** Days in each month. *)
Definition month_length (y m : Z) : Z :=
  match m with
  | 2 => 28 + leap_day y
  | 4 | 6 | 9 | 11 => 30
  | _ => 31
  end.

Definition valid_date (y m d : Z) : Prop :=
  1 <= m <= 12 /\ 1 <= d <= month_length y m.

(** Days of the year before month [m]. *)
Fixpoint days_of_months (y : Z) (n : nat) : Z :=
  match n with
  | O => 0
  | S k => days_of_months y k + month_length y (Z.of_nat (S k))
  end.

(** Days from 0001-01-01 to the start of year [y]: 365 per year and one for
    each leap year. *)
Definition days_of_years (y : Z) : Z :=
  let z := y - 1 in 365 * z + z / 4 - z / 100 + z / 400.

(** Days since 1970-01-01 (which is day 719162 after 0001-01-01). *)
Definition day_number (y m d : Z) : Z :=
  days_of_years y + days_of_months y (Z.to_nat (m - 1)) + (d - 1) - 719162.
