(** Looking for updates with the clock arithmetic of Go's runtime (C59). *)
From Verif Require Import Base Utf8 GoStrings GoStringsProof Path Fs Domain World Float64 Updater GoTime.
Open Scope st_scope.

(** updater.go:203-232 with time.Unix, time.Now and Sub as in package time. *)
Definition should_check_go (period : Z) (dir : bytes) : io bool :=
  let file := join_path [dir; last_check_file] in
  s <- io_stat file ;;
  c <- io_read file ;;
  let (saved, fine) := parse_int (trim_space (match c with Some x => x | None => [] end)) in
  t <- now ;;
  let days := f64_to_int64 (days_between (time_sub (time_now t) (time_unix saved))) in
  ret ((match s with None => true | Some _ => false end)
       || (match c with None => true | Some _ => false end)
       || negb fine || (period <=? days)%Z).

(** 64-bit overflow changes nothing: for every file, every saved number and every clock within 10^11 years
    of 1970 the decision is the one that exact arithmetic makes. *)
Theorem C59_clock_arithmetic : forall period dir w,
  (forall t, In t (w_clock w) -> (-4000000000000000000000000000 <= t <= 4000000000000000000000000000)%Z) ->
  should_check_go period dir w = should_check period dir w.
Proof.
  intros period dir w Hc. unfold should_check_go, should_check, bind, io_stat, io_read, now.
  set (p := parse_int _). assert (Hp : (min_int64 <= fst p <= max_int64)%Z) by (eapply parse_int_range; reflexivity).
  destruct p as [s fine]. cbn [fst] in Hp.
  assert (G : forall t, clock_range t -> days_between (time_sub (time_now t) (time_unix s)) = days_between (duration (t - s * 1000000000))).
  { intros t Ht. destruct (time_sub_exact t s Ht Hp) as [->|[-> ->]]; [reflexivity|vm_compute; reflexivity]. }
  destruct (w_clock w) as [|t ts]; [rewrite (G 0%Z) by (unfold clock_range; lia)|rewrite (G t) by (apply Hc; now left)]; reflexivity.
Qed.
Print Assumptions C59_clock_arithmetic.

(** A saved number at the very end of the range, where time.Unix wraps around. *)
Example C59_clock_example :
  t_sec (time_unix 9223372036854775807) = (-9223371974719179009)%Z /\
  time_sub (time_now 1641038400000000000) (time_unix 9223372036854775807) = max_int64 /\
  time_sub (time_now 1641038400000000000) (time_unix 1641038399) = 1000000000%Z.
Proof. vm_compute. auto. Qed.
