(** Independent tables and notions for the properties of Properties_Domain.v. *)
From Verif Require Import Base.

(** The item categories of the OPVault format that 1pass publishes: code, name. *)
Definition published : list (bytes * bytes) :=
  [ (b "001", b "Login");
    (b "002", b "Credit Card");
    (b "003", b "Secure Note");
    (b "004", b "Identity");
    (b "005", b "Password");
    (b "099", b "Tombstone");
    (b "100", b "Software License");
    (b "101", b "Bank Account");
    (b "102", b "Database");
    (b "103", b "Driver License");
    (b "104", b "Outdoor License");
    (b "105", b "Membership");
    (b "106", b "Passport");
    (b "107", b "Rewards");
    (b "108", b "SSN");
    (b "109", b "Router");
    (b "110", b "Server");
    (b "111", b "Email") ].

(** Two texts that differ only in the case of ASCII letters. *)
Definition upper_letters : bytes := b "ABCDEFGHIJKLMNOPQRSTUVWXYZ".
Definition lower_letters : bytes := b "abcdefghijklmnopqrstuvwxyz".

Definition same_letter (x y : ascii) : Prop :=
  x = y \/
  (exists n, nth_error upper_letters n = Some x /\ nth_error lower_letters n = Some y) \/
  (exists n, nth_error lower_letters n = Some x /\ nth_error upper_letters n = Some y).

Definition same_letters (s t : bytes) : Prop := Forall2 same_letter s t.

(** Decimal numbers of fixed width. *)
Definition digit (n : Z) : ascii := nth (Z.to_nat (n mod 10)) (b "0123456789") "0"%char.
Definition two_digits (n : Z) : bytes := [digit (n / 10); digit n].
Definition four_digits (n : Z) : bytes :=
  [digit (n / 1000); digit (n / 100); digit (n / 10); digit n].

(** YYYY-MM-DD *)
Definition date_text (y m d : Z) : bytes :=
  four_digits y ++ b "-" ++ two_digits m ++ b "-" ++ two_digits d.

(** How many line breaks a text has. *)
Definition line_breaks (s : bytes) : nat := count_occ ascii_dec s "010"%char.
