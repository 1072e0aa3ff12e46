(** The part of Go's package time that updater.go:223-225 uses, with the 64-bit arithmetic it is
    written in (time.go: Unix, Now, Add, Sub, Before, Equal).  Not part of /repo. *)
From Verif Require Import Base GoStrings Updater.
Local Open Scope Z_scope.

(** int64 arithmetic. *)
Definition wrap64 (x : Z) : Z := (x + 9223372036854775808) mod 18446744073709551616 - 9223372036854775808.

(** A Time: seconds since the year 1, and nanoseconds within the second. *)
Record gotime := MkTime { t_sec : Z; t_nsec : Z }.

Definition unix_to_internal : Z := 62135596800.
Definition second : Z := 1000000000.

(** time.Unix(sec, 0) *)
Definition time_unix (sec : Z) : gotime := MkTime (wrap64 (sec + unix_to_internal)) 0.

(** time.Now() at [t] nanoseconds after 1970. *)
Definition time_now (t : Z) : gotime := MkTime (wrap64 (t / second + unix_to_internal)) (t mod second).

(** (Time).addSec, of a time without a monotonic reading *)
Definition add_sec (s d : Z) : Z :=
  let sum := wrap64 (s + d) in
  if Bool.eqb (s <? sum) (0 <? d) then sum
  else if 0 <? d then 9223372036854775807 else -9223372036854775807.

(** (Time).Add *)
Definition time_add (u : gotime) (d : Z) : gotime :=
  let dsec := Z.quot d second in
  let n := t_nsec u + Z.rem d second in
  if second <=? n then MkTime (add_sec (t_sec u) (wrap64 (dsec + 1))) (n - second)
  else if n <? 0 then MkTime (add_sec (t_sec u) (wrap64 (dsec - 1))) (n + second)
  else MkTime (add_sec (t_sec u) dsec) n.

Definition time_eqb (a c : gotime) : bool := (t_sec a =? t_sec c) && (t_nsec a =? t_nsec c).
Definition time_before (a c : gotime) : bool := (t_sec a <? t_sec c) || ((t_sec a =? t_sec c) && (t_nsec a <? t_nsec c)).

(** (Time).Sub, unless both have a monotonic reading (one made by Unix has none). *)
Definition time_sub (t u : gotime) : Z :=
  let d := wrap64 (wrap64 (wrap64 (t_sec t - t_sec u) * second) + wrap64 (t_nsec t - t_nsec u)) in
  if time_eqb (time_add u d) t then d
  else if time_before t u then min_int64 else max_int64.

Lemma wrap64_id x : min_int64 <= x <= max_int64 -> wrap64 x = x.
Proof. unfold min_int64, max_int64, wrap64. intros H. rewrite Z.mod_small by lia. lia. Qed.
Lemma wrap64_range x : min_int64 <= wrap64 x <= max_int64.
Proof. unfold min_int64, max_int64, wrap64. assert (H := Z.mod_pos_bound (x + 9223372036854775808) 18446744073709551616 ltac:(lia)). lia. Qed.
Lemma wrap64_mod x : exists k, wrap64 x = x + k * 18446744073709551616.
Proof.
  unfold wrap64. exists (- ((x + 9223372036854775808) / 18446744073709551616)).
  assert (H := Z.div_mod (x + 9223372036854775808) 18446744073709551616 ltac:(lia)). lia.
Qed.

(** Adding to a time: never beyond the ends, otherwise the sum of the durations. *)
Definition nanos (u : gotime) : Z := t_sec u * second + t_nsec u.

Lemma add_sec_spec s d : min_int64 <= s <= max_int64 -> -10000000000 <= d <= 10000000000 ->
  (min_int64 <= s + d <= max_int64 -> add_sec s d = s + d) /\
  (~ (min_int64 <= s + d <= max_int64) -> 9000000000000000000 < Z.abs (add_sec s d) /\ (s < 0 -> add_sec s d < -9000000000000000000)).
Proof.
  intros Hs Hd. unfold add_sec. split; intros H.
  - rewrite (wrap64_id _ H). destruct (Bool.eqb _ _) eqn:E; [reflexivity|]. apply Bool.eqb_false_iff in E. lia.
  - assert (Hw : exists k, wrap64 (s + d) = s + d + k * 18446744073709551616 /\ -1 <= k <= 1).
    { destruct (wrap64_mod (s + d)) as [k Hk]. exists k. split; [exact Hk|]. assert (R := wrap64_range (s + d)).
      unfold min_int64, max_int64 in *. lia. }
    destruct Hw as (k & Hw & Hk). assert (R := wrap64_range (s + d)). unfold min_int64, max_int64 in *.
    rewrite Hw in *. destruct (Bool.eqb _ _) eqn:E; [apply Bool.eqb_true_iff in E|]; destruct (0 <? d) eqn:Ed; lia.
Qed.

Lemma time_add_spec u d : min_int64 <= t_sec u <= max_int64 -> t_nsec u = 0 -> min_int64 <= d <= max_int64 ->
  (0 <= t_nsec (time_add u d) < second) /\
  (nanos (time_add u d) = nanos u + d \/
   (~ (min_int64 <= (nanos u + d) / second <= max_int64) /\
    9000000000000000000 < Z.abs (t_sec (time_add u d)) /\ (t_sec u < 0 -> t_sec (time_add u d) < -9000000000000000000))).
Proof.
  intros Hs Hn Hd. unfold time_add. rewrite Hn. unfold nanos. rewrite Hn.
  assert (Hqr := Z.quot_rem d second ltac:(discriminate)).
  assert (Hr : - second < Z.rem d second < second).
  { assert (H := Z.rem_bound_abs d second ltac:(discriminate)). unfold second in *. lia. }
  set (q := Z.quot d second) in *. set (r := Z.rem d second) in *. cbn zeta. rewrite Z.add_0_l.
  assert (Hq : -9300000000 <= q <= 9300000000) by (unfold second, min_int64, max_int64 in *; lia).
  assert (G : forall e n, (e = q \/ e = q - 1) -> 0 <= n < second -> d = e * second + n ->
    let v := MkTime (add_sec (t_sec u) e) n in
    0 <= t_nsec v < second /\
    (t_sec v * second + t_nsec v = t_sec u * second + 0 + d \/
     ~ (min_int64 <= (t_sec u * second + 0 + d) / second <= max_int64) /\ 9000000000000000000 < Z.abs (t_sec v) /\ (t_sec u < 0 -> t_sec v < -9000000000000000000))).
  { intros e n He Hn' Hde v. split; [exact Hn'|]. unfold v. cbn [t_sec t_nsec].
    destruct (add_sec_spec (t_sec u) e Hs ltac:(lia)) as [H1 H2].
    assert (Hdiv : (t_sec u * second + 0 + d) / second = t_sec u + e).
    { symmetry. apply (Z.div_unique _ _ _ n); [left; exact Hn'|]. lia. }
    rewrite Hdiv.
    assert (Hdec : (min_int64 <= t_sec u + e <= max_int64) \/ ~ (min_int64 <= t_sec u + e <= max_int64)) by lia.
    destruct Hdec as [Hi|Ho]; [left; rewrite (H1 Hi); lia|right; split; [exact Ho|exact (H2 Ho)]]. }
  destruct (second <=? r) eqn:E1; [lia|]. destruct (r <? 0) eqn:E2.
  - rewrite wrap64_id by (unfold min_int64, max_int64; lia). apply G; lia.
  - apply G; lia.
Qed.

Definition clock_range (t : Z) : Prop := -4000000000000000000000000000 <= t <= 4000000000000000000000000000.

(** For any saved number of seconds and a clock within 10^11 years of 1970, Go's answer is the exact difference limited
    to what a Duration holds, or it is as far off in the other direction. *)
Lemma time_sub_exact t saved : clock_range t -> min_int64 <= saved <= max_int64 ->
  let d := time_sub (time_now t) (time_unix saved) in
  d = duration (t - saved * 1000000000) \/ (d = max_int64 /\ duration (t - saved * 1000000000) = min_int64).
Proof.
  intros Ht Hs. cbn zeta. unfold time_sub.
  assert (Hdm := Z.div_mod t second ltac:(discriminate)).
  assert (Hmb := Z.mod_pos_bound t second ltac:(reflexivity)).
  assert (Hq : -4000000000000000000 <= t / second <= 4000000000000000000) by (set (q := t / second) in *; set (r := t mod second) in *; clearbody q r; unfold second, clock_range in *; lia).
  assert (Hnow : t_sec (time_now t) = t / second + unix_to_internal).
  { cbn [time_now t_sec]. apply wrap64_id. unfold min_int64, max_int64, second, unix_to_internal in *. lia. }
  assert (Hnn : t_nsec (time_now t) = t mod second) by reflexivity.
  set (D := t - saved * 1000000000).
  assert (Hu0 : t_nsec (time_unix saved) = 0) by reflexivity.
  assert (Hur : min_int64 <= t_sec (time_unix saved) <= max_int64) by (cbn [time_unix t_sec]; apply wrap64_range).
  set (d := wrap64 _).
  assert (Hd : min_int64 <= d <= max_int64) by apply wrap64_range.
  destruct (time_add_spec _ d Hur Hu0 Hd) as [Hn Hadd]. set (v := time_add (time_unix saved) d) in *.
  unfold time_eqb, time_before. rewrite Hnow, Hnn, Hu0.
  destruct (Z_le_gt_dec (saved + unix_to_internal) max_int64) as [Hle|Hgt].
  - assert (Hu : t_sec (time_unix saved) = saved + unix_to_internal).
    { cbn [time_unix t_sec]. apply wrap64_id. unfold min_int64, max_int64, unix_to_internal in *. lia. }
    unfold nanos in Hadd. rewrite Hu, Hu0 in *.
    assert (HdD : min_int64 <= D <= max_int64 -> d = D).
    { intros HD. unfold d. rewrite Hnow, Hnn, ?Hu, Hu0.
      destruct (wrap64_mod (t / second + unix_to_internal - (saved + unix_to_internal))) as [k1 ->].
      destruct (wrap64_mod ((t / second + unix_to_internal - (saved + unix_to_internal) + k1 * 18446744073709551616) * second)) as [k2 ->].
      rewrite (wrap64_id (t mod second - 0)) by (unfold min_int64, max_int64, second in *; lia).
      set (x := _ + (t mod second - 0)).
      assert (Hx : exists k, x = D + k * 18446744073709551616).
      { exists (k1 * second + k2). unfold x, D, second in *. lia. }
      destruct Hx as [k ->]. destruct (wrap64_mod (D + k * 18446744073709551616)) as [k' Hk'].
      assert (R := wrap64_range (D + k * 18446744073709551616)). unfold min_int64, max_int64 in *. lia. }
    left. destruct ((t_sec v =? t / second + unix_to_internal) && (t_nsec v =? t mod second)) eqn:E.
    + apply andb_prop in E. destruct E as [E1 E2]. apply Z.eqb_eq in E1, E2.
      destruct Hadd as [Hadd|(_ & Hbig & _)]; [|unfold unix_to_internal in *; lia].
      assert (d = D) by (unfold D, second in *; lia).
      unfold duration. fold D. unfold min_int64, max_int64 in *. lia.
    + assert (HD : ~ (min_int64 <= D <= max_int64)).
      { intros HD. specialize (HdD HD). apply Bool.andb_false_iff in E.
        destruct Hadd as [Hadd|(Ho & _ & _)].
        - unfold D, second in *. lia.
        - apply Ho. replace ((saved + unix_to_internal) * second + 0 + d) with (t + unix_to_internal * second) by (unfold D, second in *; lia).
          rewrite Z.div_add by discriminate. unfold min_int64, max_int64, unix_to_internal in *. lia. }
      unfold duration. fold D.
      destruct ((t / second + unix_to_internal <? saved + unix_to_internal) || ((t / second + unix_to_internal =? saved + unix_to_internal) && (t mod second <? 0))) eqn:Eb.
      * assert (t / second < saved) by lia. assert (D < 0) by (unfold D, second in *; lia). unfold min_int64, max_int64 in *. lia.
      * assert (saved <= t / second) by lia. assert (0 <= D) by (unfold D, second in *; lia). unfold min_int64, max_int64 in *. lia.
  - assert (Hu : t_sec (time_unix saved) = saved + unix_to_internal - 18446744073709551616).
    { cbn [time_unix t_sec]. unfold wrap64.
      rewrite <- (Z.mod_unique (saved + unix_to_internal + 9223372036854775808) 18446744073709551616 1 (saved + unix_to_internal + 9223372036854775808 - 18446744073709551616));
        unfold min_int64, max_int64, unix_to_internal in *; lia. }
    right. rewrite Hu in *.
    assert (Hneg : t_sec v < -9000000000000000000).
    { destruct Hadd as [Hadd|(_ & _ & Hneg)]; [|apply Hneg; unfold max_int64, min_int64, unix_to_internal in *; lia].
      unfold nanos in Hadd. rewrite Hu, Hu0 in Hadd. unfold second, unix_to_internal, max_int64, min_int64 in *. lia. }
    destruct (t_sec v =? _) eqn:E1; [unfold unix_to_internal in *; lia|]. cbn [andb].
    destruct (_ || _) eqn:E2; [unfold max_int64, min_int64, unix_to_internal in *; lia|].
    split; [reflexivity|]. unfold duration. unfold max_int64, min_int64, unix_to_internal, second in *. lia.
Qed.
