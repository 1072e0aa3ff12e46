(** Lemmas about Float64: integers below 2^53 are represented exactly, and how
    they are printed. *)
From Verif Require Import Base Utf8 GoStrings GoStringsProof Float64.

Lemma pow2_spec k : pow2 k = (2 ^ Z.to_N k)%N.
Proof. unfold pow2. rewrite N.shiftl_1_l. reflexivity. Qed.

Lemma strip2_spec p : forall e m' e',
  strip2 p e = (m', e') -> (e <= e')%Z /\ Npos p = (m' * 2 ^ Z.to_N (e' - e))%N.
Proof.
  induction p as [p IH|p IH|]; intros e m' e'; simpl.
  - intros [= <- <-]. rewrite Z.sub_diag. simpl. lia.
  - intros H. apply IH in H. destruct H as [H1 H2]. split; [lia|].
    replace (Z.to_N (e' - e)) with (N.succ (Z.to_N (e' - (e + 1)))) by lia.
    rewrite N.pow_succ_r'. change (N.pos p~0) with (2 * N.pos p)%N. rewrite H2. lia.
  - intros [= <- <-]. rewrite Z.sub_diag. simpl. lia.
Qed.

Lemma strip2_double p j : forall e,
  strip2 (Pos.iter xO p j) e = strip2 p (e + Zpos j)%Z.
Proof.
  revert p; induction j as [|j IH] using Pos.peano_ind; intros p e.
  - simpl. reflexivity.
  - rewrite Pos.iter_succ. simpl. rewrite IH. f_equal. lia.
Qed.

Lemma iter_xO p j : Npos (Pos.iter xO p j) = (Npos p * 2 ^ Npos j)%N.
Proof.
  induction j as [|j IH] using Pos.peano_ind.
  - simpl. lia.
  - rewrite Pos.iter_succ. replace (N.pos (Pos.succ j)) with (N.succ (N.pos j)) by lia.
    rewrite N.pow_succ_r'.
    change (N.pos (Pos.iter xO p j)~0) with (2 * N.pos (Pos.iter xO p j))%N. rewrite IH. lia.
Qed.

Lemma mk_f64_shift neg m j e :
  mk_f64 neg (m * 2 ^ j)%N (e - Z.of_N j) = mk_f64 neg m e.
Proof.
  destruct m as [|p]; [simpl; reflexivity|].
  destruct j as [|j].
  - simpl N.pow. rewrite N.mul_1_r. f_equal. simpl. lia.
  - rewrite <- iter_xO. unfold mk_f64. rewrite strip2_double.
    simpl Z.of_N. now replace (e - Z.pos j + Z.pos j)%Z with e by lia.
Qed.

Lemma mk_f64_num neg m : f_num (mk_f64 neg m 0) = m.
Proof.
  destruct m as [|p]; [reflexivity|]. unfold mk_f64, f_num.
  destruct (strip2 p 0) as [m' e'] eqn:E. apply strip2_spec in E.
  destruct E as [H1 H2]. simpl. replace (0 <=? e')%Z with true by lia.
  rewrite pow2_spec. rewrite H2. repeat f_equal. lia.
Qed.

Lemma mk_f64_den neg m : f_den (mk_f64 neg m 0) = 1%N.
Proof.
  destruct m as [|p]; [reflexivity|]. unfold mk_f64, f_den.
  destruct (strip2 p 0) as [m' e'] eqn:E. apply strip2_spec in E.
  destruct E as [H1 H2]. simpl. now replace (0 <=? e')%Z with true by lia.
Qed.

Lemma mk_f64_neg neg m e : f_neg (mk_f64 neg m e) = neg.
Proof. destruct m as [|p]; [reflexivity|]. simpl. now destruct (strip2 p e). Qed.

Lemma mk_f64_inj neg m n : mk_f64 neg m 0 = mk_f64 neg n 0 -> m = n.
Proof. intros H. rewrite <- (mk_f64_num neg m), H. apply mk_f64_num. Qed.

Lemma round_div_1 n : round_div n 1 = n.
Proof.
  unfold round_div. rewrite N.div_1_r, N.mod_1_r. reflexivity.
Qed.

Lemma flog2_int n : (n <> 0)%N -> flog2 n 1 = Z.of_N (N.log2 n).
Proof.
  intros H. unfold flog2. change (N.log2 1) with 0%N.
  change (Z.of_N 0) with 0%Z.
  rewrite Z.sub_0_r. replace (0 <=? Z.of_N (N.log2 n))%Z with true by lia.
  rewrite pow2_spec, N2Z.id, N.mul_1_l.
  destruct (N.log2_spec n) as [Hl _]; [lia|].
  now replace (2 ^ N.log2 n <=? n)%N with true by lia.
Qed.

Definition exact_bound : N := 9007199254740992. (* 2^53 *)

Lemma round_int neg n :
  (n < exact_bound)%N -> round_f64 neg n 1 = Some (mk_f64 neg n 0).
Proof.
  unfold exact_bound. intros H. unfold round_f64.
  destruct (n =? 0)%N eqn:E0; [apply N.eqb_eq in E0; subst; reflexivity|].
  rewrite flog2_int by lia.
  assert (Hl : (N.log2 n < 53)%N) by (apply N.log2_lt_pow2; [lia|exact H]).
  rewrite Z.max_r by lia.
  destruct (0 <=? Z.of_N (N.log2 n) - 52)%Z eqn:Ek.
  - assert (Hk : (Z.of_N (N.log2 n) - 52 = 0)%Z) by lia. rewrite Hk.
    change (pow2 0) with 1%N. rewrite N.mul_1_r, round_div_1. reflexivity.
  - replace ((971 <? Z.of_N (N.log2 n) - 52)%Z) with false by lia.
    replace ((971 =? Z.of_N (N.log2 n) - 52)%Z) with false by lia. simpl.
    rewrite round_div_1, pow2_spec. f_equal.
    rewrite <- (mk_f64_shift neg n (Z.to_N (- (Z.of_N (N.log2 n) - 52))) 0).
    f_equal. lia.
Qed.

Lemma of_dec_int neg m e :
  (0 <= e)%Z -> (m * pow10 e < exact_bound)%N ->
  of_dec neg m e = Some (mk_f64 neg (m * pow10 e) 0).
Proof.
  intros He H. unfold of_dec. replace (0 <=? e)%Z with true by lia. now apply round_int.
Qed.

Lemma pow10_0 : pow10 0 = 1%N.
Proof. reflexivity. Qed.

Lemma of_dec_N neg m : (m < exact_bound)%N -> of_dec neg m 0 = Some (mk_f64 neg m 0).
Proof. intros H. rewrite of_dec_int; rewrite ?pow10_0, ?N.mul_1_r; auto. lia. Qed.

(** The float64 of an integer. *)
Definition f64_of_Z (z : Z) : f64 := mk_f64 (z <? 0)%Z (Z.to_N (Z.abs z)) 0.

Lemma f64_to_int64_of_Z z :
  (- 9007199254740992 < z < 9007199254740992)%Z -> f64_to_int64 (f64_of_Z z) = z.
Proof.
  intros H. unfold f64_to_int64, f64_of_Z.
  rewrite mk_f64_num, mk_f64_den, mk_f64_neg, N.div_1_r.
  unfold min_int64, max_int64.
  destruct (z <? 0)%Z eqn:E.
  - replace ((-9223372036854775808 <=? - Z.of_N (Z.to_N (Z.abs z))) &&
             (- Z.of_N (Z.to_N (Z.abs z)) <=? 9223372036854775807))%Z with true by lia. lia.
  - replace ((-9223372036854775808 <=? Z.of_N (Z.to_N (Z.abs z))) &&
             (Z.of_N (Z.to_N (Z.abs z)) <=? 9223372036854775807))%Z with true by lia. lia.
Qed.

(** ** Printing *)

Lemma f64_eqb_eq f g : f64_eqb f g = true <-> f = g.
Proof.
  unfold f64_eqb. destruct f as [n1 m1 e1], g as [n2 m2 e2]; simpl.
  rewrite !andb_true_iff, Bool.eqb_true_iff, N.eqb_eq, Z.eqb_eq. split.
  - intros [[-> ->] ->]; reflexivity.
  - intros [= -> -> ->]; auto.
Qed.

Lemma pow10_pos k : (0 < pow10 k)%N.
Proof. unfold pow10. apply N.neq_0_lt_0, N.pow_nonzero. lia. Qed.

Lemma pow10_succ k : (0 <= k)%Z -> pow10 (k + 1) = (10 * pow10 k)%N.
Proof.
  intros H. unfold pow10. replace (Z.to_N (k + 1)) with (N.succ (Z.to_N k)) by lia.
  apply N.pow_succ_r'.
Qed.

Lemma pow10_add j k : (0 <= j)%Z -> (0 <= k)%Z -> pow10 (j + k) = (pow10 j * pow10 k)%N.
Proof. intros. unfold pow10. rewrite Z2N.inj_add by lia. apply N.pow_add_r. Qed.

Lemma strip10_value fuel : forall d x d' x',
  (0 <= x)%Z -> strip10 fuel d x = (d', x') ->
  (0 <= x')%Z /\ (d' * pow10 x' = d * pow10 x)%N.
Proof.
  induction fuel as [|f IH]; intros d x d' x' Hx; simpl.
  - intros [= <- <-]; auto.
  - destruct ((d mod 10 =? 0) && negb (d =? 0))%N eqn:E.
    + intros H. apply IH in H; [|lia]. destruct H as [H1 H2]. split; [exact H1|].
      rewrite H2, pow10_succ by lia.
      assert (d = 10 * (d / 10))%N by lia. rewrite H at 2. lia.
    + intros [= <- <-]; auto.
Qed.

Lemma dec_of_N_times10 d : (d <> 0)%N -> dec_of_N (d * 10) = dec_of_N d ++ ["0"%char].
Proof.
  intros H. rewrite dec_of_N_step by lia.
  rewrite N.div_mul by lia. now rewrite N.mod_mul by lia.
Qed.

(** Stripping zeros keeps the decimal exponent of the leading digit. *)
Lemma strip10_len fuel : forall d x d' x',
  strip10 fuel d x = (d', x') ->
  (Z.of_nat (length (dec_of_N d')) + x' = Z.of_nat (length (dec_of_N d)) + x)%Z /\
  ((d <> 0)%N -> (d' <> 0)%N).
Proof.
  induction fuel as [|f IH]; intros d x d' x'; simpl.
  - intros [= <- <-]; auto.
  - destruct ((d mod 10 =? 0) && negb (d =? 0))%N eqn:E.
    + intros H. apply IH in H. destruct H as [H1 H2]. 
      assert (Hd : d = (d / 10 * 10)%N) by lia.
      assert (Hn : (d / 10 <> 0)%N) by lia.
      split; [|intros _; now apply H2].
      rewrite Hd at 1. rewrite dec_of_N_times10 by exact Hn. rewrite app_length. simpl. lia.
    + intros [= <- <-]; auto.
Qed.

(** The loop finds a decimal equal to the integer. *)
Lemma shortest_loop_int neg z : forall fuel n,
  (0 < z)%N -> (z < 1000000000000000)%N ->
  1 <= n -> n <= length (dec_of_N z) -> length (dec_of_N z) <= n + fuel ->
  let c := shortest_loop fuel n (mk_f64 neg z 0) (Z.of_nat (length (dec_of_N z))) in
  (0 <= snd c)%Z /\ (fst c * pow10 (snd c) = z)%N.
Proof.
  induction fuel as [|fuel IH]; intros n Hz Hb Hn Hle Hf; cbn zeta.
  - assert (n = length (dec_of_N z)) by lia. simpl.
    rewrite mk_f64_num, mk_f64_den. unfold cand. rewrite H, Z.sub_diag. simpl.
    rewrite round_div_1, N.mul_1_r. lia.
  - simpl. rewrite mk_f64_num, mk_f64_den, mk_f64_neg.
    set (L := length (dec_of_N z)) in *.
    assert (Hc : exists x, (0 <= x)%Z /\ x = (Z.of_nat L - Z.of_nat n)%Z /\
             cand z 1 (Z.of_nat L) n = (round_div z (pow10 x), x)).
    { exists (Z.of_nat L - Z.of_nat n)%Z. split; [lia|]. split; [reflexivity|].
      unfold cand. replace (0 <=? Z.of_nat L - Z.of_nat n)%Z with true by lia.
      now rewrite N.mul_1_l. }
    destruct Hc as (x & Hx0 & Hx & Hc). rewrite Hc. cbn [fst snd].
    set (d := round_div z (pow10 x)).
    assert (Hd : (d * pow10 x < exact_bound)%N).
    { assert (Hq : (d <= z / pow10 x + 1)%N).
      { unfold d, round_div. destruct (2 * (z mod pow10 x) <? pow10 x)%N; [lia|].
        destruct (pow10 x <? 2 * (z mod pow10 x))%N; [lia|].
        destruct (N.even (z / pow10 x)); lia. }
      assert (Hx15 : (x <= 15)%Z).
      { assert (L <= 15).
        { apply dec_of_N_length; [lia|]. exact Hb. }
        lia. }
      assert (Hp : (pow10 x <= 10 ^ 15)%N).
      { unfold pow10. apply N.pow_le_mono_r; lia. }
      assert (Hm : (z / pow10 x * pow10 x <= z)%N).
      { rewrite N.mul_comm. apply N.mul_div_le. pose proof (pow10_pos x); lia. }
      unfold exact_bound. change (10 ^ 15)%N with 1000000000000000%N in Hp.
      nia. }
    rewrite of_dec_int by assumption.
    destruct (f64_eqb (mk_f64 neg z 0) (mk_f64 neg (d * pow10 x) 0)) eqn:E.
    + apply f64_eqb_eq, mk_f64_inj in E. cbn [fst snd]. split; [exact Hx0|]. now symmetry.
    + assert (n <> L).
      { intros En. assert (Hx1 : pow10 x = 1%N) by (replace x with 0%Z by lia; reflexivity).
        assert (Hd1 : (d * pow10 x = z)%N) by (unfold d; rewrite Hx1, round_div_1; lia).
        rewrite Hd1 in E.
        assert (Ht : f64_eqb (mk_f64 neg z 0) (mk_f64 neg z 0) = true) by now apply f64_eqb_eq.
        congruence. }
      apply IH; lia.
Qed.

Lemma mk_f64_man_nz neg z : (0 < z)%N -> (f_man (mk_f64 neg z 0) =? 0)%N = false.
Proof.
  intros H. destruct z as [|p]; [lia|]. unfold mk_f64.
  destruct (strip2 p 0) as [m' e'] eqn:E. apply strip2_spec in E. simpl.
  destruct E as [_ E]. destruct m'; [simpl in E; discriminate|reflexivity].
Qed.

Lemma dec_exp_int z : (0 < z)%N -> dec_exp z 1 = Z.of_nat (length (dec_of_N z)).
Proof.
  intros H. unfold dec_exp. replace (1 <=? z)%N with true by lia.
  now rewrite N.div_1_r.
Qed.

Lemma shortest_int neg z d x :
  (0 < z)%N -> (z < 1000000000000000)%N ->
  shortest (mk_f64 neg z 0) = (d, x) -> (0 <= x)%Z /\ (d * pow10 x = z)%N.
Proof.
  intros Hz Hb. unfold shortest. rewrite mk_f64_num, mk_f64_den, dec_exp_int by exact Hz.
  assert (HL : length (dec_of_N z) <= 15) by (apply dec_of_N_length; [lia|exact Hb]).
  assert (HL1 : 1 <= length (dec_of_N z)).
  { pose proof (dec_of_N_nonempty z). destruct (dec_of_N z); [congruence|simpl; lia]. }
  pose proof (shortest_loop_int neg z 16 1 Hz Hb) as H. cbn zeta in H.
  destruct (shortest_loop 16 1 _ _) as [d1 x1]. cbn [fst snd] in H.
  destruct H as [H1 H2]; [lia|lia|lia|].
  intros E. apply strip10_value in E; [|exact H1].
  destruct E as [E1 E2]. split; [exact E1|]. now rewrite E2.
Qed.

Lemma dec_len_mul d x :
  (0 < d)%N -> (0 <= x)%Z ->
  Z.of_nat (length (dec_of_N (d * pow10 x))) = (Z.of_nat (length (dec_of_N d)) + x)%Z.
Proof.
  intros Hd Hx. pattern x. apply natlike_ind; [|intros k Hk IH|exact Hx].
  - change (pow10 0) with 1%N. rewrite N.mul_1_r. lia.
  - change (Z.succ k) with (k + 1)%Z. rewrite pow10_succ by exact Hk.
    replace (d * (10 * pow10 k))%N with (d * pow10 k * 10)%N by lia.
    rewrite dec_of_N_times10 by (pose proof (pow10_pos k); nia).
    rewrite app_length. simpl. lia.
Qed.

(** Integers below a million print as themselves. *)
Lemma sprint_small_int z :
  (- 1000000 < z < 1000000)%Z -> f64_sprint (f64_of_Z z) = itoa z.
Proof.
  intros H. unfold f64_sprint, f64_of_Z. rewrite mk_f64_neg.
  unfold itoa.
  destruct (Z.eq_dec z 0) as [->|Hz]; [reflexivity|].
  rewrite mk_f64_man_nz by lia.
  destruct (shortest (mk_f64 (z <? 0)%Z (Z.to_N (Z.abs z)) 0)) as [d x] eqn:E.
  apply shortest_int in E; [|lia|lia]. destruct E as [Hx Hd].
  assert (Hd0 : (0 < d)%N) by (destruct d; lia).
  assert (HL : length (dec_of_N (Z.to_N (Z.abs z))) <= 6).
  { apply dec_of_N_length; [lia|]. change (10 ^ N.of_nat 6)%N with 1000000%N. lia. }
  pose proof (dec_len_mul d x Hd0 Hx) as HL2. rewrite Hd in HL2.
  set (e10 := (Z.of_nat (length (dec_of_N d)) + x - 1)%Z) in *.
  assert (HL1 : 1 <= length (dec_of_N (Z.to_N (Z.abs z)))).
  { pose proof (dec_of_N_nonempty (Z.to_N (Z.abs z))).
    destruct (dec_of_N (Z.to_N (Z.abs z))); [congruence|simpl; lia]. }
  replace ((e10 <? -4) || (6 <=? e10))%Z with false by lia.
  unfold fmt_f. replace (0 <=? x)%Z with true by lia. rewrite Hd.
  destruct (z <? 0)%Z eqn:Ez.
  - now replace (Z.to_N (Z.abs z)) with (Z.to_N (- z)) by lia.
  - now replace (Z.to_N (Z.abs z)) with (Z.to_N z) by lia.
Qed.

(** Any float64 of absolute value at least a million prints in %e form. *)
Lemma round_div_ge num den q : (0 < den)%N -> (q * den <= num)%N -> (q <= round_div num den)%N.
Proof.
  intros Hd H. assert (q <= num / den)%N by (apply N.div_le_lower_bound; lia).
  unfold round_div. destruct (2 * (num mod den) <? den)%N; [lia|].
  destruct (den <? 2 * (num mod den))%N; [lia|]. destruct (N.even (num / den)); lia.
Qed.

Lemma cand_len num den L n d x :
  (0 < den)%N -> (1 <= L)%Z -> 1 <= n ->
  (den * pow10 (L - 1) <= num)%N -> cand num den L n = (d, x) ->
  (L <= Z.of_nat (length (dec_of_N d)) + x)%Z /\ (0 < d)%N.
Proof.
  intros Hd HL Hn Hge. unfold cand.
  assert (Hp : (pow10 (Z.of_nat n - 1) <= d)%N ->
     (n - 1 < length (dec_of_N d)) /\ (0 < d)%N).
  { intros Hp. split.
    - apply dec_of_N_length_ge. unfold pow10 in Hp.
      replace (N.of_nat (n - 1)) with (Z.to_N (Z.of_nat n - 1)) by lia. exact Hp.
    - pose proof (pow10_pos (Z.of_nat n - 1)). lia. }
  destruct (0 <=? L - Z.of_nat n)%Z eqn:E; intros [= <- <-].
  - destruct Hp as [Hp1 Hp2]; [|split; [lia|exact Hp2]].
    apply round_div_ge; [pose proof (pow10_pos (L - Z.of_nat n)); lia|].
    replace (L - 1)%Z with ((Z.of_nat n - 1) + (L - Z.of_nat n))%Z in Hge by lia.
    rewrite pow10_add in Hge by lia. lia.
  - destruct Hp as [Hp1 Hp2]; [|split; [lia|exact Hp2]].
    apply round_div_ge; [exact Hd|].
    replace (Z.of_nat n - 1)%Z with ((L - 1) + (- (L - Z.of_nat n)))%Z by lia.
    rewrite pow10_add by lia.
    pose proof (pow10_pos (- (L - Z.of_nat n))). nia.
Qed.

Lemma shortest_loop_len f L : forall fuel n d x,
  (0 < f_den f)%N -> (1 <= L)%Z -> 1 <= n ->
  (f_den f * pow10 (L - 1) <= f_num f)%N ->
  shortest_loop fuel n f L = (d, x) ->
  (L <= Z.of_nat (length (dec_of_N d)) + x)%Z /\ (0 < d)%N.
Proof.
  induction fuel as [|fuel IH]; intros n d x Hd HL Hn Hge; simpl.
  - intros H. eapply cand_len; eauto.
  - destruct (of_dec _ _ _) as [g|].
    + destruct (f64_eqb f g).
      * intros H. eapply cand_len; eauto.
      * intros H. eapply IH; [..|exact H]; auto.
    + intros H. eapply IH; [..|exact H]; auto.
Qed.

Lemma f_den_pos f : (0 < f_den f)%N.
Proof.
  unfold f_den. destruct (0 <=? f_exp f)%Z; [lia|]. rewrite pow2_spec.
  apply N.neq_0_lt_0, N.pow_nonzero. lia.
Qed.

Lemma dec_of_N_lower q : (0 < q)%N -> (pow10 (Z.of_nat (length (dec_of_N q)) - 1) <= q)%N.
Proof.
  intros H. destruct (N.lt_ge_cases q (pow10 (Z.of_nat (length (dec_of_N q)) - 1))) as [Hlt|]; [|assumption].
  exfalso. unfold pow10 in Hlt.
  assert (HL1 : 1 <= length (dec_of_N q)).
  { pose proof (dec_of_N_nonempty q). destruct (dec_of_N q); [congruence|simpl; lia]. }
  set (L := length (dec_of_N q)) in *.
  destruct (Nat.eq_dec L 1) as [E|E].
  - rewrite E in Hlt. simpl in Hlt. lia.
  - assert (length (dec_of_N q) <= L - 1).
    { apply dec_of_N_length; [lia|].
      replace (N.of_nat (L - 1)) with (Z.to_N (Z.of_nat L - 1)) by lia. exact Hlt. }
    unfold L in *. lia.
Qed.

Lemma sprint_large f :
  (1000000 * f_den f <= f_num f)%N ->
  exists c rest, f64_sprint f = (if f_neg f then ["-"%char] else []) ++ c :: rest /\
     is_digit c = true /\
     (exists d rest', rest = d :: rest' /\ is_digit d = false).
Proof.
  intros H. unfold f64_sprint. pose proof (f_den_pos f) as Hden.
  assert (Hm : (f_man f =? 0)%N = false).
  { destruct (f_man f) eqn:E; [|reflexivity]. exfalso. unfold f_num in H. rewrite E in H.
    destruct (0 <=? f_exp f)%Z; rewrite ?N.mul_0_l in H; lia. }
  rewrite Hm. unfold shortest.
  set (L := dec_exp (f_num f) (f_den f)).
  assert (HL : (7 <= L)%Z /\ (f_den f * pow10 (L - 1) <= f_num f)%N).
  { unfold L, dec_exp. replace (f_den f <=? f_num f)%N with true by lia.
    assert (Hq : (1000000 <= f_num f / f_den f)%N) by (apply N.div_le_lower_bound; lia).
    split.
    - assert (6 < length (dec_of_N (f_num f / f_den f))).
      { apply dec_of_N_length_ge. exact Hq. }
      lia.
    - pose proof (dec_of_N_lower (f_num f / f_den f)%N ltac:(lia)).
      pose proof (N.mul_div_le (f_num f) (f_den f) ltac:(lia)). nia. }
  destruct HL as [HL Hge].
  destruct (shortest_loop 16 1 f L) as [d1 x1] eqn:E1.
  apply shortest_loop_len in E1; [|first [exact Hden | exact Hge | lia]..]. destruct E1 as [E1 Hd1].
  destruct (strip10 20 d1 x1) as [d x] eqn:E2. apply strip10_len in E2.
  destruct E2 as [E2 E3].
  set (e10 := (Z.of_nat (length (dec_of_N d)) + x - 1)%Z).
  replace ((e10 <? -4) || (6 <=? e10))%Z with true by lia.
  unfold fmt_e. pose proof (dec_of_N_digits d) as Hdig.
  destruct (dec_of_N d) as [|c rest] eqn:E4; [now apply dec_of_N_nonempty in E4|].
  exists c. simpl in Hdig. apply andb_true_iff in Hdig; destruct Hdig as [Hc _].
  eexists. split.
  - destruct (f_neg f); reflexivity.
  - split; [exact Hc|].
    destruct rest as [|c2 rest]; simpl; eexists; eexists; split; try reflexivity.
Qed.

(** ... and therefore ParseInt fails on it and yields 0. *)
Lemma parse_int_sprint_large f :
  (1000000 * f_den f <= f_num f)%N -> parse_int (f64_sprint f) = (0%Z, false).
Proof.
  intros H. destruct (sprint_large f H) as (c & rest & -> & Hc & d & rest' & -> & Hd).
  assert (Hpu : parse_uint (c :: d :: rest') = (0%N, PSyntax)).
  { unfold parse_uint. cbn [parse_uint_loop]. rewrite Hc, Hd. cbn [negb].
    change (1844674407370955162 <=? 0)%N with false. cbv zeta. cbv iota.
    assert (digit_val c <= 9)%N.
    { unfold is_digit, in_range in Hc. unfold digit_val. lia. }
    replace (18446744073709551615 <? 0 * 10 + digit_val c)%N with false by lia.
    reflexivity. }
  destruct (f_neg f); simpl app; unfold parse_int.
  - change (Ascii.eqb "-" "-") with true. cbn [orb]. now rewrite Hpu.
  - assert (Hc1 : Ascii.eqb c "-" = false /\ Ascii.eqb c "+" = false).
    { split; apply Ascii.eqb_neq; intros ->; vm_compute in Hc; discriminate. }
    destruct Hc1 as [-> ->]. cbn [orb]. now rewrite Hpu.
Qed.

Lemma f64_of_Z_num z : f_num (f64_of_Z z) = Z.to_N (Z.abs z).
Proof. apply mk_f64_num. Qed.
Lemma f64_of_Z_den z : f_den (f64_of_Z z) = 1%N.
Proof. apply mk_f64_den. Qed.
