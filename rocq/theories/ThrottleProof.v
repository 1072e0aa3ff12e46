(** The number of days between two moments, as updater.go computes it in float64. *)
From Verif Require Import Base GoStrings Float64 Float64Proof RoundProof Updater.
Local Open Scope N_scope.

Definition hour_ns : N := 3600000000000.
Definition day_ns : N := 86400000000000.

(** Everything that is needed of the three roundings. *)
Lemma days_parts d : (Z.abs d <= max_int64)%Z -> let n := Z.to_N (Z.abs d) in
  exists y, days_between d = y /\ f_neg y = false /\
    f_num y * 24 * hour_ns * (9007199254740992 * 9007199254740992 * 9007199254740992) <=
      n * f_den y * (9007199254740993 * 9007199254740993 * 9007199254740993) /\
    (forall K, K < 1000000 -> K * day_ns <= n -> K * f_den y <= f_num y).
Proof.
  cbn zeta. intros Hd. unfold max_int64 in Hd. set (n := Z.to_N (Z.abs d)).
  assert (Hn : n <= 9223372036854775807) by lia.
  unfold days_between. fold n. change 3600000000000 with hour_ns.
  assert (HH : 0 < hour_ns) by (unfold hour_ns; lia).
  assert (Hdm := N.div_mod n hour_ns ltac:(lia)). assert (Hm := N.mod_lt n hour_ns ltac:(lia)).
  set (h := n / hour_ns) in *. set (r := n mod hour_ns) in *.
  assert (Hh : h <= 2562047) by (unfold hour_ns in *; lia).
  assert (P10 : 1000 < pow2 100) by reflexivity. assert (P20 : 10000000000 < pow2 100) by reflexivity.
  assert (P30 : 3600000000000 * 4 < pow2 1000) by reflexivity.
  set (P := pow2 100) in *. set (Q := pow2 1000) in *.
  destruct (round_some false r hour_ns HH ltac:(fold P; unfold hour_ns in *; lia)) as (f & Hf & _). rewrite Hf. cbn [f64_or_zero].
  assert (Ff : f_num f * hour_ns * 9007199254740992 <= r * f_den f * 9007199254740993 /\
               r * f_den f * 9007199254740991 <= f_num f * hour_ns * 9007199254740992).
  { apply (round_upper _ _ _ _ HH Hf). destruct (N.eq_dec r 0); [now left|right]. fold Q.
    assert (X : 1 * Q <= r * Q) by (apply N.mul_le_mono_r; lia). unfold hour_ns. lia. }
  destruct Ff as [F1 F2]. assert (Fd := f_den_pos f).
  set (fn := f_num f) in *. set (fd := f_den f) in *.
  assert (Hfn : fn <= 2 * fd).
  { assert (X : r * fd <= hour_ns * fd) by (apply N.mul_le_mono_r; lia). unfold hour_ns in *. lia. }
  assert (Hhf : h * fd <= 2562047 * fd) by now apply N.mul_le_mono_r.
  assert (HfP : fd * 10000000000 <= fd * P) by (apply N.mul_le_mono_l; lia).
  destruct (round_some false (h * fd + fn) fd Fd ltac:(fold P; lia)) as (g & Hg & _). rewrite Hg. cbn [f64_or_zero].
  assert (Hnum : h * fd + fn = 0 \/ fd <= (h * fd + fn) * Q).
  { destruct (N.eq_dec h 0) as [Eh|Eh].
    - rewrite Eh in *. destruct (N.eq_dec r 0) as [Er|Er]; [left; rewrite Er in F1; cbn in F1; unfold hour_ns in *; lia|right].
      assert (X1 : fd * 9007199254740991 <= fn * hour_ns * 9007199254740992).
      { etransitivity; [|exact F2]. apply N.mul_le_mono_r. rewrite <- (N.mul_1_l fd) at 1. apply N.mul_le_mono_r. lia. }
      assert (X2 : fd <= fn * (2 * hour_ns)) by (unfold hour_ns in *; lia).
      assert (X3 : fn * (3600000000000 * 4) <= fn * Q) by (apply N.mul_le_mono_l; lia). unfold hour_ns in *; lia.
    - right. assert (X : 1 * fd <= h * fd) by (apply N.mul_le_mono_r; lia).
      assert (X2 : (h * fd + fn) * 1 <= (h * fd + fn) * Q) by (apply N.mul_le_mono_l; lia). lia. }
  assert (Gg := round_upper _ _ _ _ Fd Hg Hnum).
  destruct Gg as [G1 _]. assert (Gd := f_den_pos g).
  assert (G2 : forall K, K < exact_bound -> K * fd <= h * fd + fn -> K * f_den g <= f_num g)
    by (intros K HK HK2; apply (round_lower _ _ _ _ K Fd Hg HK HK2)).
  set (gn := f_num g) in *. set (gd := f_den g) in *.
  assert (Hgn : gn <= 10000000 * gd).
  { assert (X : gn * fd * 9007199254740992 <= 2562049 * fd * gd * 9007199254740993).
    { etransitivity; [exact G1|]. apply N.mul_le_mono_r, N.mul_le_mono_r. lia. }
    assert (X' : fd * (gn * 9007199254740992) <= fd * (2562049 * gd * 9007199254740993)) by lia.
    apply N.mul_le_mono_pos_l in X'; [|exact Fd]. lia. }
  assert (HgP : gd * 10000000000 <= gd * P) by (apply N.mul_le_mono_l; lia).
  destruct (round_some false gn (gd * 24) ltac:(lia) ltac:(fold P; lia)) as (y & Hy & Hneg). rewrite Hy. cbn [f64_or_zero].
  exists y. split; [reflexivity|]. split; [exact Hneg|].
  assert (Yu : gn = 0 \/ gd * 24 <= gn * pow2 1000).
  { destruct (N.eq_dec gn 0) as [|Eg]; [now left|right]. fold Q.
    destruct (N.eq_dec h 0) as [E0|E0].
    - (* less than an hour: [gd] is bounded by the error of the roundings *)
      assert (G3 : (h * fd + fn) * gd * 9007199254740991 <= gn * fd * 9007199254740992).
      { apply (round_upper _ _ _ _ Fd Hg Hnum). }
      rewrite E0 in *. cbn [N.mul N.add] in G3.
      destruct (N.eq_dec r 0) as [Er|Er].
      + exfalso. assert (H : fn = 0) by (rewrite Er in F1; cbn in F1; unfold hour_ns in *; lia). rewrite H in G1. cbn in G1.
        assert (0 < gn * fd) by (apply N.mul_pos_pos; lia). lia.
      + assert (X1 : fd * 9007199254740991 <= fn * hour_ns * 9007199254740992).
        { etransitivity; [|exact F2]. apply N.mul_le_mono_r. rewrite <- (N.mul_1_l fd) at 1. apply N.mul_le_mono_r. lia. }
        assert (X2 : fd <= fn * (2 * hour_ns)) by (unfold hour_ns in *; lia).
        assert (X3 : fn * gd <= 2 * (gn * fd)) by lia.
        assert (X4 : fn * gd <= 2 * gn * (fn * (2 * hour_ns))).
        { etransitivity; [exact X3|]. rewrite N.mul_assoc. now apply N.mul_le_mono_l. }
        assert (X5 : fn * gd <= fn * (gn * (4 * hour_ns))) by lia.
        assert (Hfn0 : 0 < fn) by (destruct (N.eq_dec fn 0) as [E|E]; [rewrite E in X2; cbn in X2; lia|lia]).
        apply N.mul_le_mono_pos_l in X5; [|exact Hfn0].
        assert (P31 : 24 * (4 * 3600000000000) < Q) by (unfold Q; reflexivity).
        assert (P32 : gn * (24 * (4 * 3600000000000)) <= gn * Q) by (apply N.mul_le_mono_l; lia).
        unfold hour_ns in X5. lia.
    - assert (X : 1 * gd <= gn).
      { apply G2; [unfold exact_bound; lia|]. assert (1 * fd <= h * fd) by (apply N.mul_le_mono_r; lia). lia. }
      assert (P32 : gn * (3600000000000 * 4) <= gn * Q) by (apply N.mul_le_mono_l; lia). lia. }
  assert (Gd24 : 0 < gd * 24) by lia.
  assert (Y1 := proj1 (round_upper _ _ _ _ Gd24 Hy Yu)). assert (Yd := f_den_pos y).
  assert (Y2 : forall K, K < exact_bound -> K * (gd * 24) <= gn -> K * f_den y <= f_num y)
    by (intros K HK HK2; apply (round_lower _ _ _ _ K Gd24 Hy HK HK2)).
  set (yn := f_num y) in *. set (yd := f_den y) in *.
  split.
  - set (A := 9007199254740992) in *. set (B := 9007199254740993) in *. set (H := hour_ns) in *.
    assert (HAB : A <= B) by (unfold A, B; lia). clearbody A B H.
    assert (S1 : gn * A * A * H <= n * gd * B * B).
    { assert (X : fd * (gn * A * A * H) <= fd * (n * gd * B * B)); [|now apply N.mul_le_mono_pos_l in X].
      replace (fd * (gn * A * A * H)) with ((gn * fd * A) * (A * H)) by lia.
      etransitivity; [apply N.mul_le_mono_r, G1|].
      replace ((h * fd + fn) * gd * B * (A * H)) with ((h * fd * H * A + fn * H * A) * (gd * B)) by lia.
      replace (fd * (n * gd * B * B)) with (fd * n * B * (gd * B)) by lia.
      apply N.mul_le_mono_r. rewrite Hdm.
      replace (fd * (H * h + r) * B) with (h * fd * H * B + r * fd * B) by lia.
      apply N.add_le_mono; [|exact F1]. now apply N.mul_le_mono_l. }
    assert (X : gd * (yn * 24 * H * (A * A * A)) <= gd * (n * yd * (B * B * B))); [|now apply N.mul_le_mono_pos_l in X].
    replace (gd * (yn * 24 * H * (A * A * A))) with (yn * (gd * 24) * A * (A * A * H)) by lia.
    etransitivity; [apply N.mul_le_mono_r, Y1|].
    replace (gn * yd * B * (A * A * H)) with (gn * A * A * H * (yd * B)) by lia.
    replace (gd * (n * yd * (B * B * B))) with (n * gd * B * B * (yd * B)) by lia.
    now apply N.mul_le_mono_r.
  - intros K HK HKn. apply Y2; [unfold exact_bound; lia|].
    assert (X : (24 * K) * gd <= gn); [|lia].
    apply G2; [unfold exact_bound; lia|]. assert (24 * K <= h); [|assert (24 * K * fd <= h * fd) by (now apply N.mul_le_mono_r); lia].
    unfold h. apply N.div_le_lower_bound; unfold hour_ns, day_ns in *; lia.
Qed.

(** int(math.Abs(d.Hours() / 24)) *)
Definition days_int (d : Z) : Z := f64_to_int64 (days_between d).

Lemma days_int_floor d : (Z.abs d <= max_int64)%Z ->
  days_int d = Z.of_N (f_num (days_between d) / f_den (days_between d)).
Proof.
  intros Hd. destruct (days_parts d Hd) as (y & Hy & Hneg & Hu & _). unfold days_int. rewrite Hy. clear Hy.
  unfold f64_to_int64. rewrite Hneg.
  assert (Yd := f_den_pos y). unfold max_int64 in *. set (n := Z.to_N (Z.abs d)) in *.
  assert (Hn : n <= 9223372036854775807) by lia.
  assert (Hq : f_num y / f_den y < 200000).
  { apply N.div_lt_upper_bound; [lia|].
    assert (X : n * f_den y <= 9223372036854775807 * f_den y) by now apply N.mul_le_mono_r.
    unfold hour_ns in Hu. set (nd := n * f_den y) in *. clearbody nd. lia. }
  set (q := f_num y / f_den y) in *. clearbody q.
  replace (min_int64 <=? Z.of_N q)%Z with true by (unfold min_int64; lia).
  replace (Z.of_N q <=? 9223372036854775807)%Z with true by lia. reflexivity.
Qed.

Lemma days_lower d K : (Z.abs d <= max_int64)%Z -> (0 <= K)%Z -> (K * Z.of_N day_ns <= Z.abs d)%Z -> (K <= days_int d)%Z.
Proof.
  intros Hd HK Hle. rewrite (days_int_floor d Hd). destruct (days_parts d Hd) as (y & Hy & _ & _ & Hl). rewrite Hy.
  assert (Yd := f_den_pos y). unfold max_int64, day_ns in *.
  specialize (Hl (Z.to_N K) ltac:(lia) ltac:(lia)).
  assert (X : Z.to_N K <= f_num y / f_den y) by (apply N.div_le_lower_bound; lia). lia.
Qed.

Lemma days_upper d K : (Z.abs d <= max_int64)%Z -> (Z.abs d + 10000 <= K * Z.of_N day_ns)%Z -> (days_int d < K)%Z.
Proof.
  intros Hd Hle. rewrite (days_int_floor d Hd). destruct (days_parts d Hd) as (y & Hy & _ & Hu & _). rewrite Hy.
  assert (Yd := f_den_pos y). unfold max_int64, day_ns, hour_ns in *. set (n := Z.to_N (Z.abs d)) in *.
  assert (HK : (0 < K)%Z) by lia.
  assert (X : f_num y / f_den y < Z.to_N K); [|lia].
  apply N.div_lt_upper_bound; [lia|].
  set (k := Z.to_N K). assert (Hk : n + 10000 <= k * 86400000000000) by lia.
  assert (Hn : n <= 9223372036854775807) by lia.
  assert (Hs : n * (9007199254740993 * 9007199254740993 * 9007199254740993) <
    k * 86400000000000 * (9007199254740992 * 9007199254740992 * 9007199254740992)).
  { clearbody n k. lia. }
  set (yn := f_num y) in *. set (yd := f_den y) in *. clearbody n k yn yd.
  assert (S1 : yn * 24 * 3600000000000 * (9007199254740992 * 9007199254740992 * 9007199254740992) <
    yd * (k * 86400000000000 * (9007199254740992 * 9007199254740992 * 9007199254740992))).
  { eapply N.le_lt_trans; [exact Hu|]. rewrite (N.mul_comm n yd), <- N.mul_assoc. apply N.mul_lt_mono_pos_l; assumption. }
  rewrite !N.mul_assoc in S1. set (yk := yd * k) in *. clearbody yk. lia.
Qed.
