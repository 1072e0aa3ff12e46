(** Rounding to float64: integers are not passed, and the error is small. *)
From Verif Require Import Base GoStrings Float64 Float64Proof.
Local Open Scope N_scope.

Lemma pow2_pos k : 0 < pow2 k.
Proof. rewrite pow2_spec. apply N.neq_0_lt_0, N.pow_nonzero. lia. Qed.

Lemma pow2_add i j : (0 <= i)%Z -> (0 <= j)%Z -> pow2 (i + j) = pow2 i * pow2 j.
Proof. intros Hi Hj. rewrite !pow2_spec, Z2N.inj_add by assumption. apply N.pow_add_r. Qed.

Lemma pow2_0 : pow2 0 = 1. Proof. reflexivity. Qed.
Lemma pow2_1 : pow2 1 = 2. Proof. reflexivity. Qed.

Lemma log2_bounds n : 0 < n -> 2 ^ N.log2 n <= n < 2 * 2 ^ N.log2 n.
Proof. intros H. destruct (N.log2_spec n H) as [H1 H2]. rewrite N.pow_succ_r' in H2. lia. Qed.

(** [2^l <= num/den < 2^(l+1)] *)
Lemma flog2_spec num den : 0 < num -> 0 < den ->
  let l := flog2 num den in
  ((0 <= l)%Z -> den * pow2 l <= num /\ num < den * pow2 (l + 1)) /\
  ((l < 0)%Z -> den <= num * pow2 (- l) /\ num * pow2 (- l) < 2 * den).
Proof.
  intros Hn Hd. cbn zeta. unfold flog2.
  destruct (log2_bounds num Hn) as [A1 A2], (log2_bounds den Hd) as [C1 C2].
  set (a := N.log2 num) in *. set (c := N.log2 den) in *.
  destruct (Z.leb_spec 0 (Z.of_N a - Z.of_N c)) as [Hl|Hl].
  - assert (Hp : 2 ^ a = 2 ^ c * pow2 (Z.of_N a - Z.of_N c)).
    { rewrite pow2_spec, <- N.pow_add_r. f_equal. lia. }
    set (P := pow2 (Z.of_N a - Z.of_N c)) in *.
    assert (HP : 0 < P) by apply pow2_pos.
    destruct (N.leb_spec (den * P) num) as [H|H].
    + split; intros Hs; [|lia]. split; [exact H|]. rewrite pow2_add, pow2_1 by lia. fold P. nia.
    + destruct (Z.eq_dec (Z.of_N a - Z.of_N c) 0) as [Ez|Ez].
      * assert (HP1 : P = 1) by (unfold P; rewrite Ez; reflexivity). rewrite Ez.
        split; intros Hs; [lia|]. change (pow2 (- (0 - 1))) with 2. nia.
      * split; intros Hs; [|lia].
        assert (HP2 : P = 2 * pow2 (Z.of_N a - Z.of_N c - 1)).
        { unfold P. replace (Z.of_N a - Z.of_N c)%Z with (1 + (Z.of_N a - Z.of_N c - 1))%Z at 1 by lia.
          rewrite pow2_add by lia. reflexivity. }
        replace (Z.of_N a - Z.of_N c - 1 + 1)%Z with (Z.of_N a - Z.of_N c)%Z by lia. fold P.
        set (Q := pow2 (Z.of_N a - Z.of_N c - 1)) in *. split; nia.
  - assert (Hp : 2 ^ c = 2 ^ a * pow2 (- (Z.of_N a - Z.of_N c))).
    { rewrite pow2_spec, <- N.pow_add_r. f_equal. lia. }
    set (P := pow2 (- (Z.of_N a - Z.of_N c))) in *.
    assert (HP : 0 < P) by apply pow2_pos.
    destruct (N.leb_spec den (num * P)) as [H|H].
    + split; intros Hs; [lia|]. fold P. split; [exact H|nia].
    + split; intros Hs; [lia|].
      replace (- (Z.of_N a - Z.of_N c - 1))%Z with (- (Z.of_N a - Z.of_N c) + 1)%Z by lia.
      rewrite pow2_add, pow2_1 by lia. fold P. split; nia.
Qed.

Lemma round_div_bounds n d : 0 < d -> n / d <= round_div n d /\ 2 * (round_div n d * d) <= 2 * n + d /\ 2 * n <= 2 * (round_div n d * d) + d.
Proof.
  intros Hd. unfold round_div.
  assert (H := N.div_mod n d ltac:(lia)). assert (Hm := N.mod_lt n d ltac:(lia)).
  set (q := n / d) in *. set (r := n mod d) in *.
  destruct (N.ltb_spec (2 * r) d); [repeat split; nia|].
  destruct (N.ltb_spec d (2 * r)); [repeat split; nia|].
  destruct (N.even q); repeat split; nia.
Qed.

Lemma mk_value neg q k : let f := mk_f64 neg q k in
  ((0 <= k)%Z -> f_num f = q * pow2 k /\ f_den f = 1) /\
  ((k < 0)%Z -> f_num f * pow2 (- k) = q * f_den f).
Proof.
  cbn zeta. destruct q as [|p].
  - cbn. split; intros H; [split; reflexivity|reflexivity].
  - unfold mk_f64. destruct (strip2 p k) as [m' e'] eqn:E. apply strip2_spec in E. destruct E as [He Hp].
    unfold f_num, f_den. cbn [f_exp f_man]. rewrite Hp.
    assert (Hx : 2 ^ Z.to_N (e' - k) = pow2 (e' - k)) by (rewrite pow2_spec; reflexivity). rewrite Hx.
    split; intros Hk.
    + replace (0 <=? e')%Z with true by lia. split; [|reflexivity].
      replace e' with ((e' - k) + k)%Z at 1 by lia. rewrite pow2_add by lia. lia.
    + destruct (Z.leb_spec 0 e').
      * replace (e' - k)%Z with (e' + (- k))%Z by lia. rewrite pow2_add by lia. lia.
      * replace (- k)%Z with ((e' - k) + (- e'))%Z by lia. rewrite pow2_add by lia. lia.
Qed.

Lemma f_den_pos f : 0 < f_den f.
Proof. unfold f_den. destruct (0 <=? f_exp f)%Z; [lia|apply pow2_pos]. Qed.

(** A fraction at least an integer is rounded to something at least that. *)
Lemma round_lower neg num den f K : 0 < den -> round_f64 neg num den = Some f ->
  K < exact_bound -> K * den <= num -> K * f_den f <= f_num f.
Proof.
  unfold round_f64, exact_bound. intros Hd Hf HK Hle.
  destruct (N.eqb_spec num 0) as [->|Hn].
  { injection Hf as <-. cbn. assert (K = 0) by nia. subst K. lia. }
  destruct (flog2_spec num den ltac:(lia) Hd) as [L1 L2].
  set (l := flog2 num den) in *. set (k := Z.max (-1074) (l - 52)) in *.
  set (q := if (0 <=? k)%Z then _ else _) in *.
  destruct ((971 <? k)%Z || _); [discriminate|]. injection Hf as <-.
  destruct (mk_value neg q k) as [V1 V2].
  destruct (Z.leb_spec 0 k) as [Hk|Hk].
  - destruct (V1 Hk) as [-> ->]. rewrite N.mul_1_r.
    assert (Hl : (0 <= l)%Z) by lia. destruct (L1 Hl) as [L11 _].
    assert (HP : 0 < pow2 k) by apply pow2_pos.
    destruct (round_div_bounds num (den * pow2 k) ltac:(nia)) as (Hq & _). fold q in Hq.
    assert (Hlk : pow2 l = pow2 k * 4503599627370496).
    { assert (Hx : l = (k + 52)%Z) by lia. rewrite Hx, pow2_add by lia. reflexivity. }
    assert (Hq2 : 4503599627370496 <= q).
    { etransitivity; [|exact Hq]. apply N.div_le_lower_bound; nia. }
    destruct (Z.eq_dec k 0) as [E|E].
    + rewrite E, pow2_0 in *. rewrite N.mul_1_r in *. etransitivity; [|exact Hq]. apply N.div_le_lower_bound; nia.
    + assert (HP2 : 2 <= pow2 k).
      { replace k with (1 + (k - 1))%Z by lia. rewrite pow2_add, pow2_1 by lia. assert (H := pow2_pos (k - 1)). nia. }
      nia.
  - specialize (V2 Hk). destruct (round_div_bounds (num * pow2 (- k)) den Hd) as (Hq & _). fold q in Hq.
    assert (HP : 0 < pow2 (- k)) by apply pow2_pos.
    assert (Hq2 : K * pow2 (- k) <= q).
    { etransitivity; [|exact Hq]. apply N.div_le_lower_bound; nia. }
    assert (Hfd := f_den_pos (mk_f64 neg q k)). nia.
Qed.

(** The rounded value is at most a tiny part above or below the exact one. *)
Lemma round_upper neg num den f : 0 < den -> round_f64 neg num den = Some f ->
  (num = 0 \/ den <= num * pow2 1000) ->
  f_num f * den * 9007199254740992 <= num * f_den f * 9007199254740993 /\
  num * f_den f * 9007199254740991 <= f_num f * den * 9007199254740992.
Proof.
  unfold round_f64. intros Hd Hf Hsub.
  destruct (N.eqb_spec num 0) as [->|Hn].
  { injection Hf as <-. cbn. split; lia. }
  destruct (flog2_spec num den ltac:(lia) Hd) as [L1 L2].
  set (l := flog2 num den) in *.
  assert (Hl : (-1001 <= l)%Z).
  { destruct (Z.leb_spec (-1001) l); [assumption|]. destruct L2 as [_ L22]; [lia|].
    destruct Hsub as [|Hsub]; [lia|]. exfalso.
    assert (Hx : pow2 (- l) = pow2 1000 * (2 * pow2 (- l - 1001))).
    { replace (- l)%Z with (1000 + (1 + (- l - 1001)))%Z at 1 by lia. rewrite !pow2_add by lia. reflexivity. }
    assert (H1 := pow2_pos (- l - 1001)). rewrite Hx in L22.
    set (P := pow2 1000) in *. set (Q := pow2 (- l - 1001)) in *. clearbody P Q.
    assert (num * (P * (2 * Q)) = 2 * (num * P * Q)) by lia. assert (num * P <= num * P * Q) by nia. lia. }
  set (k := Z.max (-1074) (l - 52)) in *. assert (Hkl : k = (l - 52)%Z) by lia.
  set (q := if (0 <=? k)%Z then _ else _) in *.
  destruct ((971 <? k)%Z || _); [discriminate|]. injection Hf as <-.
  destruct (mk_value neg q k) as [V1 V2]. assert (Hfd := f_den_pos (mk_f64 neg q k)).
  set (fn := f_num (mk_f64 neg q k)) in *. set (fd := f_den (mk_f64 neg q k)) in *. clearbody fn fd.
  destruct (Z.leb_spec 0 k) as [Hk|Hk].
  - destruct (V1 Hk) as [-> ->]. rewrite N.mul_1_r.
    destruct (L1 ltac:(lia)) as [L11 _]. assert (HP : 0 < pow2 k) by apply pow2_pos.
    destruct (round_div_bounds num (den * pow2 k) ltac:(nia)) as (_ & Hq & Hq'). fold q in Hq, Hq'.
    assert (Hlk : pow2 l = pow2 k * 4503599627370496).
    { assert (Hx : l = (k + 52)%Z) by lia. rewrite Hx, pow2_add by lia. reflexivity. }
    rewrite Hlk in L11. set (P := pow2 k) in *. clearbody P q.
    assert (q * P * den * 2 <= 2 * num + den * P) by lia.
    assert (den * P * 4503599627370496 <= num) by lia. split; lia.
  - specialize (V2 Hk). destruct (round_div_bounds (num * pow2 (- k)) den Hd) as (_ & Hq & Hq'). fold q in Hq, Hq'.
    assert (HP : 0 < pow2 (- k)) by apply pow2_pos.
    assert (Hup : den * 4503599627370496 <= num * pow2 (- k)).
    { destruct (Z.leb_spec 0 l).
      - destruct (L1 ltac:(lia)) as [L11 _].
        assert (Hx : 4503599627370496 = pow2 l * pow2 (- k)) by (rewrite <- pow2_add by lia; replace (l + - k)%Z with 52%Z by lia; reflexivity).
        rewrite Hx. set (P := pow2 (- k)) in *. set (Q := pow2 l) in *. clearbody P Q. nia.
      - destruct (L2 ltac:(lia)) as [L21 _].
        assert (Hx : pow2 (- k) = pow2 (- l) * 4503599627370496).
        { replace (- k)%Z with (- l + 52)%Z by lia. rewrite pow2_add by lia. reflexivity. }
        rewrite Hx. lia. }
    set (P := pow2 (- k)) in *. clearbody P q.
    assert (H2 : q * den * 2 <= 2 * (num * P) + den) by lia.
    assert (H3 : q * den * 9007199254740992 <= num * P * 9007199254740993) by lia.
    assert (H4 : (fn * den * 9007199254740992) * P <= (num * fd * 9007199254740993) * P).
    { replace (fn * den * 9007199254740992 * P) with (fn * P * den * 9007199254740992) by lia. rewrite V2. nia. }
    assert (H5 : num * P * 9007199254740991 <= q * den * 9007199254740992) by lia.
    assert (H6 : (num * fd * 9007199254740991) * P <= (fn * den * 9007199254740992) * P).
    { replace (fn * den * 9007199254740992 * P) with (fn * P * den * 9007199254740992) by lia. rewrite V2. nia. }
    split; [now apply N.mul_le_mono_pos_r in H4|now apply N.mul_le_mono_pos_r in H6].
Qed.

(** No overflow for moderate values. *)
Lemma round_some neg num den : 0 < den -> num < den * pow2 100 -> exists f, round_f64 neg num den = Some f /\ f_neg f = neg.
Proof.
  intros Hd Hb. unfold round_f64. destruct (N.eqb_spec num 0) as [->|Hn]; [eexists; split; reflexivity|].
  destruct (flog2_spec num den ltac:(lia) Hd) as [L1 _]. set (l := flog2 num den) in *.
  assert (Hl : (l < 100)%Z).
  { destruct (Z.ltb_spec l 100); [assumption|]. exfalso. destruct (L1 ltac:(lia)) as [L11 _].
    assert (Hx : pow2 l = pow2 100 * pow2 (l - 100)) by (rewrite <- pow2_add by lia; f_equal; lia).
    assert (H1 := pow2_pos (l - 100)). rewrite Hx in L11. set (P := pow2 100) in *. set (Q := pow2 (l - 100)) in *. clearbody P Q.
    assert (den * P <= den * (P * Q)) by nia. lia. }
  set (k := Z.max (-1074) (l - 52)). replace (971 <? k)%Z with false by lia. replace (971 =? k)%Z with false by lia.
  cbn [orb andb]. eexists. split; [reflexivity|apply mk_f64_neg].
Qed.
