(** The calendar algorithm against the specification. *)
From Verif Require Import Base Utf8 GoStrings GoStringsProof Civil Spec_Civil.
Local Open Scope Z_scope.
Local Arguments leap_day : simpl never.
Local Arguments Z.add : simpl nomatch.

Lemma is_leap_day y : leap_day y = if is_leap y then 1 else 0.
Proof.
  unfold leap_day, is_leap.
  destruct (y mod 400 =? 0) eqn:E1, (y mod 4 =? 0) eqn:E2, (y mod 100 =? 0) eqn:E3;
    simpl; try reflexivity; lia.
Qed.

Lemma abs_year_spec D y r :
  0 <= D -> abs_year D = (y, r) ->
  D = days_of_years y - 719162 + abs_epoch_days + r /\ 0 <= r < 365 + (if is_leap y then 1 else 0).
Proof.
  intros HD. unfold abs_year. cbv zeta.
  set (n400 := D / 146097).
  set (d1 := D - 146097 * n400).
  assert (H1 : 0 <= d1 < 146097) by (unfold d1, n400; lia).
  set (c := d1 / 36524). set (n100 := c - c / 4).
  set (d2 := d1 - 36524 * n100).
  assert (H2 : 0 <= n100 <= 3 /\ 0 <= d2 /\ (n100 < 3 -> d2 < 36524) /\ d2 < 36525) by
    (unfold d2, n100, c; lia).
  set (n4 := d2 / 1461). set (d3 := d2 - 1461 * n4).
  assert (H3 : 0 <= n4 <= 24 /\ 0 <= d3 < 1461 /\ (n4 = 24 -> n100 < 3 -> d3 < 1460)) by
    (unfold d3, n4; lia).
  set (e := d3 / 365). set (n1 := e - e / 4). set (r' := d3 - 365 * n1).
  assert (H4 : 0 <= n1 <= 3 /\ 0 <= r' /\ (n1 < 3 -> r' < 365) /\ r' < 366 /\
               (n1 = 3 -> r' = 365 -> d3 = 1460)) by (unfold r', n1, e; lia).
  intros Heq. apply pair_equal_spec in Heq. destruct Heq as [<- <-].
  assert (HD' : D = 146097 * n400 + 36524 * n100 + 1461 * n4 + 365 * n1 + r').
  { unfold r', d3, d2, d1. lia. }
  clearbody n1 n4 n100 n400 r' d3.
  clearbody d2. clear H1 e c d1.
  set (Y := 400 * n400 + 100 * n100 + 4 * n4 + n1 + abs_zero_year).
  assert (HY : Y - 1 = 400 * (n400 - 730692556) + 100 * n100 + 4 * n4 + n1)
    by (unfold Y, abs_zero_year; lia).
  assert (Q4 : (Y - 1) / 4 = 100 * (n400 - 730692556) + 25 * n100 + n4) by lia.
  assert (Q100 : (Y - 1) / 100 = 4 * (n400 - 730692556) + n100) by lia.
  assert (Q400 : (Y - 1) / 400 = n400 - 730692556) by lia.
  split.
  - unfold days_of_years. cbv zeta. rewrite Q4, Q100, Q400. unfold abs_epoch_days. lia.
  - destruct (Z.eq_dec r' 365) as [Er|Er].
    + assert (n1 = 3) by lia. assert (Hnl : n4 <> 24 \/ n100 = 3) by lia.
      assert (Hl : is_leap Y = true).
      { unfold is_leap. 
        assert (Y mod 4 = 0) by lia.
        destruct (Z.eq_dec n4 24) as [E24|E24].
        - assert (Y mod 400 = 0) by lia. lia.
        - assert (Y mod 100 <> 0) by lia. lia. }
      rewrite Hl. lia.
    + destruct (is_leap Y); lia.
Qed.

Lemma month_day_ok leap y r m d :
  is_leap y = leap -> 0 <= r < 365 + (if leap then 1 else 0) ->
  month_day leap r = (m, d) ->
  valid_date y m d /\ r = days_of_months y (Z.to_nat (m - 1)) + (d - 1).
Proof.
  intros Hl Hr Hmd. pose proof (is_leap_day y) as Hld. rewrite Hl in Hld.
  unfold valid_date. revert Hmd. unfold month_day. cbv zeta.
  assert (Hgo : forall day, 0 <= day < 365 -> month_go day = (m, d) ->
     1 <= m <= 12 /\ (day = nth (Z.to_nat (m - 1)) days_before 0 + (d - 1)) /\ 1 <= d /\
     day < nth (Z.to_nat m) days_before 0).
  { intros day Hday. unfold month_go. cbv zeta.
    assert (Hq : exists q, Z.to_nat (day / 31) = q /\ (q <= 11)%nat /\
                    31 * Z.of_nat q <= day < 31 * Z.of_nat q + 31).
    { exists (Z.to_nat (day / 31)). lia. }
    destruct Hq as (q & -> & Hq & Hb).
    destruct (nth (S q) days_before 0 <=? day) eqn:E;
      intros Heq; apply pair_equal_spec in Heq; destruct Heq as [<- <-].
    - replace (Z.to_nat (Z.of_nat q + 2 - 1)) with (S q) by lia.
      replace (Z.to_nat (Z.of_nat q + 2)) with (S (S q)) by lia.
      do 12 (destruct q as [|q]; [cbn [nth days_before] in *; lia|]). lia.
    - replace (Z.to_nat (Z.of_nat q + 1 - 1)) with q by lia.
      replace (Z.to_nat (Z.of_nat q + 1)) with (S q) by lia.
      do 12 (destruct q as [|q]; [cbn [nth days_before] in *; lia|]). lia. }
  assert (Hmlen : forall k : Z, 1 <= k <= 12 ->
    days_of_months y (Z.to_nat (k - 1)) = nth (Z.to_nat (k - 1)) days_before 0 + (if 3 <=? k then leap_day y else 0) /\
    month_length y k = nth (Z.to_nat k) days_before 0 - nth (Z.to_nat (k - 1)) days_before 0 + (if k =? 2 then leap_day y else 0)).
  { intros k Hk. 
    assert (Hc : k = 1 \/ k = 2 \/ k = 3 \/ k = 4 \/ k = 5 \/ k = 6 \/ k = 7 \/ k = 8 \/ k = 9 \/ k = 10 \/ k = 11 \/ k = 12) by lia.
    repeat (destruct Hc as [->|Hc]); [..|subst k]; simpl; lia. }
  assert (Hmono : forall i j : nat, (i <= j)%nat -> (j <= 12)%nat -> nth i days_before 0 <= nth j days_before 0).
  { intros i j Hij Hj.
    do 13 (destruct i as [|i]; [do 13 (destruct j as [|j]; [simpl; lia|]); lia|]). lia. }
  destruct leap.
  - destruct (59 <? r) eqn:E59.
    + intros H. apply Hgo in H; [|lia]. destruct H as (Hm & Hday & Hd & Hlt).
      destruct (Hmlen m Hm) as [HA HB]. rewrite HA, HB, Hld.
      assert (3 <= m).
      { destruct (Z.le_gt_cases 3 m) as [|Hlt3]; [assumption|].
        assert (m = 1 \/ m = 2) as [->| ->] by lia; simpl in Hlt; lia. }
      replace (3 <=? m) with true by lia. replace (m =? 2) with false by lia. lia.
    + destruct (r =? 59) eqn:E60.
      * intros [= <- <-]. simpl. lia.
      * intros H. apply Hgo in H; [|lia]. destruct H as (Hm & Hday & Hd & Hlt).
        destruct (Hmlen m Hm) as [HA HB]. rewrite HA, HB, Hld.
        assert (m <= 2).
        { destruct (Z.le_gt_cases m 2) as [|Hgt]; [assumption|].
          pose proof (Hmono 2%nat (Z.to_nat (m - 1)) ltac:(lia) ltac:(lia)) as Hm2.
          change (nth 2 days_before 0) with 59 in Hm2. lia. }
        replace (3 <=? m) with false by lia. destruct (m =? 2); lia.
  - intros H. apply Hgo in H; [|lia]. destruct H as (Hm & Hday & Hd & Hlt).
    destruct (Hmlen m Hm) as [HA HB]. rewrite HA, HB, Hld.
    destruct (3 <=? m), (m =? 2); lia.
Qed.

(** Seconds for which the 64-bit computation does not wrap around. *)
Definition civil_range (sec : Z) : Prop :=
  0 <= sec + abs_epoch_days * 86400 < 18446744073709551616.

Lemma civil_spec sec y m d :
  civil_range sec -> civil sec = (y, m, d) ->
  valid_date y m d /\ day_number y m d = sec / 86400.
Proof.
  intros Hr. unfold civil. unfold uint64, civil_range in *. rewrite Z.mod_small by exact Hr.
  destruct (abs_year _) as [y' r] eqn:E1. destruct (month_day _ _) as [m' d'] eqn:E2.
  intros [= <- <- <-].
  apply abs_year_spec in E1; [|unfold abs_epoch_days in *; lia].
  destruct E1 as [E1 Hb].
  apply (month_day_ok _ y') in E2; [|reflexivity|exact Hb].
  destruct E2 as [Hv Hrd]. split; [exact Hv|].
  unfold day_number. rewrite Z.div_add in E1 by lia. lia.
Qed.

(** Day numbers identify valid dates. *)
Lemma month_length_pos y m : 28 <= month_length y m.
Proof.
  unfold month_length. pose proof (is_leap_day y). destruct (is_leap y);
  repeat match goal with |- context [match ?x with _ => _ end] => destruct x; try lia end.
Qed.

Lemma days_of_months_mono y i j : (i <= j)%nat -> days_of_months y i + 28 * Z.of_nat (j - i) <= days_of_months y j.
Proof.
  intros H. induction j as [|j IH].
  - replace i with 0%nat by lia. simpl. lia.
  - destruct (Nat.eq_dec i (S j)) as [->|Hne]; [rewrite Nat.sub_diag; lia|].
    cbn [days_of_months]. pose proof (month_length_pos y (Z.of_nat (S j))). lia.
Qed.

Lemma days_of_months_12 y : days_of_months y 12 = 365 + leap_day y.
Proof. simpl. lia. Qed.

Lemma days_of_years_step y : days_of_years (y + 1) = days_of_years y + 365 + leap_day y.
Proof.
  unfold days_of_years. cbv zeta. rewrite is_leap_day. unfold is_leap.
  replace (y + 1 - 1) with y by lia.
  destruct (y mod 4 =? 0) eqn:E4; destruct (y mod 100 =? 0) eqn:E100;
  destruct (y mod 400 =? 0) eqn:E400; cbn [andb orb negb]; lia.
Qed.

Lemma leap_day_range y : 0 <= leap_day y <= 1.
Proof. rewrite is_leap_day. destruct (is_leap y); lia. Qed.

Lemma days_of_years_lt y z : y < z -> days_of_years y + 365 + leap_day y <= days_of_years z.
Proof.
  intros H. replace z with (y + 1 + Z.of_nat (Z.to_nat (z - y - 1))) by lia.
  induction (Z.to_nat (z - y - 1)) as [|k IH].
  - simpl. rewrite Z.add_0_r, days_of_years_step. lia.
  - replace (y + 1 + Z.of_nat (S k)) with ((y + 1 + Z.of_nat k) + 1) by lia.
    rewrite days_of_years_step. pose proof (leap_day_range (y + 1 + Z.of_nat k)). lia.
Qed.

Lemma year_day_range y m d : valid_date y m d ->
  0 <= days_of_months y (Z.to_nat (m - 1)) + (d - 1) < 365 + leap_day y.
Proof.
  intros [Hm Hd]. pose proof (days_of_months_mono y 0 (Z.to_nat (m - 1)) ltac:(lia)).
  change (days_of_months y 0) with 0 in H.
  pose proof (days_of_months_mono y (S (Z.to_nat (m - 1))) 12 ltac:(lia)) as H2.
  rewrite days_of_months_12 in H2. cbn [days_of_months] in H2.
  replace (Z.of_nat (S (Z.to_nat (m - 1)))) with m in H2 by lia. lia.
Qed.

Lemma day_number_inj y m d y' m' d' :
  valid_date y m d -> valid_date y' m' d' -> day_number y m d = day_number y' m' d' ->
  y = y' /\ m = m' /\ d = d'.
Proof.
  intros H H' E. pose proof (year_day_range _ _ _ H) as R. pose proof (year_day_range _ _ _ H') as R'.
  unfold day_number in E.
  assert (y = y').
  { destruct (Z.lt_trichotomy y y') as [Hl|[->|Hl]]; [|reflexivity|].
    - apply days_of_years_lt in Hl. lia.
    - apply days_of_years_lt in Hl. lia. }
  subst y'. assert (m = m').
  { destruct H as [Hm Hd], H' as [Hm' Hd'].
    destruct (Z.lt_trichotomy m m') as [Hl|[->|Hl]]; [|reflexivity|].
    - pose proof (days_of_months_mono y (S (Z.to_nat (m - 1))) (Z.to_nat (m' - 1)) ltac:(lia)) as M.
      cbn [days_of_months] in M. replace (Z.of_nat (S (Z.to_nat (m - 1)))) with m in M by lia. lia.
    - pose proof (days_of_months_mono y (S (Z.to_nat (m' - 1))) (Z.to_nat (m - 1)) ltac:(lia)) as M.
      cbn [days_of_months] in M. replace (Z.of_nat (S (Z.to_nat (m' - 1)))) with m' in M by lia. lia. }
  subst m'. repeat split. lia.
Qed.

Lemma civil_iff sec y m d :
  civil_range sec ->
  (civil sec = (y, m, d) <-> valid_date y m d /\ day_number y m d = sec / 86400).
Proof.
  intros Hr. split; [now apply civil_spec|].
  intros [Hv Hn]. destruct (civil sec) as [[y' m'] d'] eqn:E.
  apply civil_spec in E; [|exact Hr]. destruct E as [Hv' Hn'].
  destruct (day_number_inj _ _ _ _ _ _ Hv Hv') as (-> & -> & ->); [congruence|reflexivity].
Qed.
