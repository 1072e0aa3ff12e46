(** Lemmas about GoStrings. *)
From Verif Require Import Base Utf8 Spec_Numeral GoStrings.

(** ** The concrete Unicode table satisfies the laws *)

Lemma latin1_ok : unicode_ok latin1.
Proof.
  constructor; simpl; unfold rune_lower, rune_title, is_separator, valid_rune, is_upper_ascii,
    is_lower_ascii, is_digit_rune; simpl.
  - intros r H. unfold in_range in *.
    destruct ((192 <=? r)%N && (r <=? 222)%N && negb (r =? 215)%N) eqn:E1; [lia|].
    destruct (r =? 304)%N; [reflexivity|]. destruct (r =? 8490)%N; [reflexivity|lia].
  - intros r Hr. unfold in_range.
    destruct ((192 <=? r)%N && (r <=? 222)%N && negb (r =? 215)%N) eqn:E1.
    + replace (r + 32 <? 128)%N with false by lia.
      replace ((192 <=? r + 32)%N && (r + 32 <=? 222)%N && negb (r + 32 =? 215)%N) with false by lia.
      replace (r + 32 =? 304)%N with false by lia.
      replace (r + 32 =? 8490)%N with false by lia. reflexivity.
    + destruct (r =? 304)%N eqn:E2; [reflexivity|].
      destruct (r =? 8490)%N eqn:E3; [reflexivity|].
      replace (r <? 128)%N with false by lia. rewrite E1, E2, E3; reflexivity.
  - intros r Hr. unfold in_range.
    destruct ((192 <=? r)%N && (r <=? 222)%N && negb (r =? 215)%N) eqn:E1; [lia|].
    destruct (r =? 304)%N eqn:E2; [auto|]. destruct (r =? 8490)%N eqn:E3; [auto|lia].
  - intros r H. unfold in_range in *.
    destruct ((224 <=? r)%N && (r <=? 254)%N && negb (r =? 247)%N) eqn:E1; [lia|].
    destruct (r =? 305)%N; [reflexivity|]. destruct (r =? 383)%N; [reflexivity|lia].
  - intros r Hr. unfold in_range.
    destruct ((224 <=? r)%N && (r <=? 254)%N && negb (r =? 247)%N) eqn:E1.
    + replace (r - 32 <? 128)%N with false by lia.
      replace ((224 <=? r - 32)%N && (r - 32 <=? 254)%N && negb (r - 32 =? 247)%N) with false by lia.
      replace (r - 32 =? 305)%N with false by lia.
      replace (r - 32 =? 383)%N with false by lia. reflexivity.
    + destruct (r =? 305)%N eqn:E2; [reflexivity|].
      destruct (r =? 383)%N eqn:E3; [reflexivity|].
      replace (r <? 128)%N with false by lia. rewrite E1, E2, E3; reflexivity.
  - intros r Hr. replace (r <? 128)%N with false by lia.
    destruct (in_range 224 254 r && negb (r =? 247)%N) eqn:E1.
    + unfold in_range in *. replace (r - 32 <? 128)%N with false by lia.
      replace (((192 <=? r - 32)%N && (r - 32 <=? 214)%N || (216 <=? r - 32)%N && (r - 32 <=? 246)%N
         || (248 <=? r - 32)%N && (r - 32 <=? 255)%N || (r - 32 =? 304)%N || (r - 32 =? 305)%N
         || (r - 32 =? 383)%N || (r - 32 =? 8490)%N)) with true by lia.
      replace (((192 <=? r)%N && (r <=? 214)%N || (216 <=? r)%N && (r <=? 246)%N
         || (248 <=? r)%N && (r <=? 255)%N || (r =? 304)%N || (r =? 305)%N
         || (r =? 383)%N || (r =? 8490)%N)) with true by lia. reflexivity.
    + destruct (r =? 305)%N eqn:E2; [apply N.eqb_eq in E2; subst; reflexivity|].
      destruct (r =? 383)%N eqn:E3; [apply N.eqb_eq in E3; subst; reflexivity|].
      replace (r <? 128)%N with false by lia. rewrite ?E2, ?E3. reflexivity.
Qed.

(** ** Decimal numbers *)

Definition dec_val (s : bytes) : N :=
  fold_left (fun n c => (n * 10 + digit_val c)%N) s 0%N.

Lemma digit_val_char d : (d < 10)%N -> digit_val (digit_char d) = d.
Proof. intros; unfold digit_val, digit_char; rewrite vb_bv by lia; lia. Qed.

Lemma is_digit_char d : (d < 10)%N -> is_digit (digit_char d) = true.
Proof. intros; unfold is_digit, digit_char, in_range; rewrite vb_bv by lia; lia. Qed.

Lemma size_nat_div10 n : (10 <= n)%N -> N.size_nat (n / 10) < N.size_nat n.
Proof.
  intros H.
  assert (Hs : forall m, m <> 0%N -> N.of_nat (N.size_nat m) = N.succ (N.log2 m)).
  { intros m Hm. rewrite <- N.size_log2 by exact Hm. destruct m; [congruence|].
    simpl. clear. induction p; simpl; lia. }
  assert (Hd : (n / 10 <= n / 2)%N) by lia.
  destruct (N.eq_dec (n / 10) 0) as [E|E]; [lia|].
  assert (N.log2 (n / 10) < N.log2 n)%N.
  { pose proof (N.log2_le_mono _ _ Hd).
    assert (Hp : (0 < n / 2)%N) by lia.
    pose proof (N.log2_double _ Hp) as Hdb.
    assert (2 * (n / 2) <= n)%N as Hle by lia.
    apply N.log2_le_mono in Hle. rewrite Hdb in Hle. lia. }
  pose proof (Hs (n/10)%N E). pose proof (Hs n). lia.
Qed.

Lemma dec_fuel_props fuel n :
  N.size_nat n < fuel ->
  dec_val (dec_fuel fuel n) = n /\ forallb is_digit (dec_fuel fuel n) = true.
Proof.
  revert n; induction fuel as [|f IH]; intros n H; [lia|]. simpl.
  destruct (n <? 10)%N eqn:E.
  - simpl. unfold dec_val; simpl. rewrite digit_val_char by lia.
    rewrite is_digit_char by lia. auto.
  - assert (Hs : N.size_nat (n / 10) < f).
    { pose proof (size_nat_div10 n). lia. }
    destruct (IH (n / 10)%N Hs) as [IH1 IH2]. split.
    + unfold dec_val in *. rewrite fold_left_app, IH1. simpl.
      rewrite digit_val_char by lia. lia.
    + rewrite forallb_app, IH2. simpl. rewrite is_digit_char by lia. reflexivity.
Qed.

Lemma dec_val_of_N n : dec_val (dec_of_N n) = n.
Proof. apply dec_fuel_props. lia. Qed.

Lemma dec_of_N_digits n : forallb is_digit (dec_of_N n) = true.
Proof. apply dec_fuel_props. lia. Qed.

Lemma dec_of_N_nonempty n : dec_of_N n <> [].
Proof.
  unfold dec_of_N; simpl. destruct (n <? 10)%N; [discriminate|].
  intros H. apply app_eq_nil in H. destruct H; discriminate.
Qed.

Lemma dec_fuel_enough f1 f2 n :
  N.size_nat n < f1 -> N.size_nat n < f2 -> dec_fuel f1 n = dec_fuel f2 n.
Proof.
  revert f2 n; induction f1 as [|f1 IH]; intros [|f2] n H1 H2; try lia. simpl.
  destruct (n <? 10)%N eqn:E; [reflexivity|]. f_equal.
  pose proof (size_nat_div10 n). apply IH; lia.
Qed.

Lemma dec_of_N_step n :
  (10 <= n)%N -> dec_of_N n = dec_of_N (n / 10) ++ [digit_char (n mod 10)].
Proof.
  intros H. unfold dec_of_N. pose proof (size_nat_div10 n H).
  rewrite (dec_fuel_enough (S (N.size_nat (n / 10))) (N.size_nat n)) by lia.
  simpl. now replace (n <? 10)%N with false by lia.
Qed.

Lemma dec_of_N_small n : (n < 10)%N -> dec_of_N n = [digit_char n].
Proof. intros H. unfold dec_of_N; simpl. now replace (n <? 10)%N with true by lia. Qed.

Lemma dec_of_N_inj n m : dec_of_N n = dec_of_N m -> n = m.
Proof. intros H. rewrite <- (dec_val_of_N n), H. apply dec_val_of_N. Qed.

(** Number of digits. *)
Lemma dec_of_N_length n k :
  (0 < k)%nat -> (n < 10 ^ N.of_nat k)%N -> length (dec_of_N n) <= k.
Proof.
  revert n; induction k as [|k IH]; intros n Hk H; [lia|].
  destruct (N.lt_ge_cases n 10) as [Hs|Hs].
  - rewrite dec_of_N_small by exact Hs. simpl; lia.
  - rewrite dec_of_N_step by exact Hs. rewrite app_length; simpl.
    assert (Hk0 : (0 < k)%nat).
    { destruct k; [|lia]. simpl in H. lia. }
    assert (n / 10 < 10 ^ N.of_nat k)%N.
    { rewrite Nat2N.inj_succ, N.pow_succ_r' in H. lia. }
    specialize (IH _ Hk0 H0). lia.
Qed.

Lemma dec_of_N_length_ge n k : (10 ^ N.of_nat k <= n)%N -> k < length (dec_of_N n).
Proof.
  revert n; induction k as [|k IH]; intros n H.
  - pose proof (dec_of_N_nonempty n). destruct (dec_of_N n); [congruence|simpl; lia].
  - rewrite Nat2N.inj_succ, N.pow_succ_r' in H.
    assert (0 < 10 ^ N.of_nat k)%N by (apply N.neq_0_lt_0, N.pow_nonzero; lia).
    rewrite dec_of_N_step by lia. rewrite app_length; simpl.
    assert (10 ^ N.of_nat k <= n / 10)%N by lia. specialize (IH _ H1). lia.
Qed.

Lemma fold_dec_bound s n :
  (n <= fold_left (fun n c => n * 10 + digit_val c) s n)%N.
Proof. revert n; induction s as [|c s IH]; intros n; simpl; [lia|]. specialize (IH (n * 10 + digit_val c)%N). lia. Qed.

Lemma parse_uint_loop_ok s n :
  forallb is_digit s = true ->
  (fold_left (fun n c => n * 10 + digit_val c) s n <= 18446744073709551615)%N ->
  parse_uint_loop n s = (fold_left (fun n c => (n * 10 + digit_val c)%N) s n, PFine).
Proof.
  revert n; induction s as [|c s IH]; intros n Hd Hb; [reflexivity|].
  simpl in *. apply andb_true_iff in Hd; destruct Hd as [Hc Hs]. rewrite Hc. simpl.
  pose proof (fold_dec_bound s (n * 10 + digit_val c)%N).
  replace (1844674407370955162 <=? n)%N with false by lia.
  replace (18446744073709551615 <? n * 10 + digit_val c)%N with false by lia.
  apply IH; assumption.
Qed.

Lemma parse_uint_dec n :
  (n <= 18446744073709551615)%N -> parse_uint (dec_of_N n) = (n, PFine).
Proof.
  intros H. unfold parse_uint.
  destruct (dec_of_N n) eqn:E; [now apply dec_of_N_nonempty in E|].
  rewrite <- E. rewrite parse_uint_loop_ok.
  - f_equal. apply dec_val_of_N.
  - apply dec_of_N_digits.
  - change (dec_val (dec_of_N n) <= 18446744073709551615)%N. rewrite dec_val_of_N; exact H.
Qed.

Lemma dec_head_not_sign n c s :
  dec_of_N n = c :: s -> Ascii.eqb c "-"%char = false /\ Ascii.eqb c "+"%char = false.
Proof.
  intros E. pose proof (dec_of_N_digits n) as H. rewrite E in H. simpl in H.
  apply andb_true_iff in H; destruct H as [H _].
  split; apply Ascii.eqb_neq; intros ->; vm_compute in H; discriminate.
Qed.

Lemma parse_int_itoa z :
  (min_int64 <= z <= max_int64)%Z -> parse_int (itoa z) = (z, true).
Proof.
  unfold min_int64, max_int64; intros H. unfold itoa.
  destruct (z <? 0)%Z eqn:E.
  - unfold parse_int. change (Ascii.eqb "-" "-") with true. cbn [orb negb andb].
    rewrite parse_uint_dec by lia.
    replace (9223372036854775808 <? Z.to_N (- z))%N with false by lia.
    f_equal. lia.
  - unfold parse_int. destruct (dec_of_N (Z.to_N z)) eqn:E2; [now apply dec_of_N_nonempty in E2|].
    destruct (dec_head_not_sign _ _ _ E2) as [-> ->]. cbn [orb negb andb].
    rewrite <- E2, parse_uint_dec by lia.
    replace (9223372036854775808 <=? Z.to_N z)%N with false by lia.
    f_equal; lia.
Qed.

Lemma parse_int_range s z : fst (parse_int s) = z -> (min_int64 <= z <= max_int64)%Z.
Proof.
  unfold parse_int, min_int64, max_int64. destruct s as [|c s]; simpl; [lia|].
  destruct (parse_uint _) as [un st].
  destruct st; simpl.
  - destruct (negb (Ascii.eqb c "-") && (9223372036854775808 <=? un)%N) eqn:E1; simpl; [lia|].
    destruct (Ascii.eqb c "-" && (9223372036854775808 <? un)%N) eqn:E2; simpl; [lia|].
    destruct (Ascii.eqb c "-"); simpl in *; lia.
  - lia.
  - destruct (negb (Ascii.eqb c "-") && (9223372036854775808 <=? un)%N) eqn:E1; simpl; [lia|].
    destruct (Ascii.eqb c "-" && (9223372036854775808 <? un)%N) eqn:E2; simpl; [lia|].
    destruct (Ascii.eqb c "-"); simpl in *; lia.
Qed.

(** ** Case *)

Lemma rune_lower_valid U r :
  unicode_ok U -> valid_rune r = true -> valid_rune (rune_lower U r) = true.
Proof.
  intros HU H. unfold rune_lower. destruct (r <? 128)%N eqn:E.
  - unfold is_upper_ascii, in_range. destruct ((65 <=? r) && (r <=? 90))%N eqn:E2; unfold valid_rune; lia.
  - now apply (ul_valid U HU).
Qed.

Lemma rune_lower_idem U r :
  unicode_ok U -> rune_lower U (rune_lower U r) = rune_lower U r.
Proof.
  intros HU. unfold rune_lower at 2 3. destruct (r <? 128)%N eqn:E.
  - unfold is_upper_ascii, in_range. destruct ((65 <=? r) && (r <=? 90))%N eqn:E2.
    + unfold rune_lower. replace (r + 32 <? 128)%N with true by lia.
      unfold is_upper_ascii, in_range. now replace ((65 <=? r + 32) && (r + 32 <=? 90))%N with false by lia.
    + unfold rune_lower. rewrite E. unfold is_upper_ascii, in_range. now rewrite E2.
  - apply (ul_idem U HU). lia.
Qed.

Lemma map_runes_decode f s :
  (forall r, valid_rune r = true -> valid_rune (f r) = true) ->
  utf8_decode (map_runes f s) = map f (utf8_decode s).
Proof.
  intros Hf. unfold map_runes. apply utf8_decode_encode.
  pose proof (utf8_decode_valid s) as H. apply Forall_map.
  eapply Forall_impl; [|exact H]. exact Hf.
Qed.

Lemma to_lower_decode U s :
  unicode_ok U -> utf8_decode (to_lower U s) = map (rune_lower U) (utf8_decode s).
Proof. intros HU. apply map_runes_decode. intros; now apply rune_lower_valid. Qed.

Lemma to_lower_idem U s : unicode_ok U -> to_lower U (to_lower U s) = to_lower U s.
Proof.
  intros HU. unfold to_lower at 1. unfold map_runes.
  rewrite to_lower_decode by exact HU. rewrite map_map.
  unfold to_lower, map_runes. f_equal. apply map_ext. intros; now apply rune_lower_idem.
Qed.

Lemma to_lower_nil U s : to_lower U s = [] <-> s = [].
Proof.
  unfold to_lower, map_runes. split; [|intros ->; reflexivity].
  intros H. apply utf8_encode_nil_inv in H. apply map_eq_nil in H.
  now apply utf8_decode_nil_inv.
Qed.

(** ** Substrings *)

Lemma has_prefix_spec p s : has_prefix p s = true <-> exists q, s = p ++ q.
Proof.
  revert s; induction p as [|c p IH]; intros s; simpl.
  - split; [intros _; now exists s|reflexivity].
  - destruct s as [|d s]; [split; [discriminate|intros (q & H); discriminate]|].
    rewrite andb_true_iff, IH, Ascii.eqb_eq. split.
    + intros (-> & q & ->). now exists q.
    + intros (q & [= -> ->]). eauto.
Qed.

Lemma contains_spec s sub :
  contains s sub = true <-> exists p q, s = p ++ sub ++ q.
Proof.
  induction s as [|c s IH]; simpl contains.
  - rewrite orb_false_r, has_prefix_spec. split.
    + intros (q & H). exists [], q. exact H.
    + intros (p & q & H). symmetry in H. apply app_eq_nil in H as [_ H]. eauto.
  - rewrite orb_true_iff, has_prefix_spec, IH. split.
    + intros [(q & H)|(p & q & H)]; [now exists [], q|exists (c :: p), q; now rewrite H].
    + intros ([|d p] & q & H); [left; eauto|right]. injection H as -> ->. eauto.
Qed.

Lemma contains_nil s : contains s [] = true.
Proof. destruct s; reflexivity. Qed.

(** ** Title *)

Lemma rune_title_valid U r :
  unicode_ok U -> valid_rune r = true -> valid_rune (rune_title U r) = true.
Proof.
  intros HU H. unfold rune_title. destruct (r <? 128)%N eqn:E.
  - unfold is_lower_ascii, in_range. destruct ((97 <=? r) && (r <=? 122))%N eqn:E2; unfold valid_rune; lia.
  - now apply (ut_valid U HU).
Qed.

Lemma rune_title_idem U r :
  unicode_ok U -> rune_title U (rune_title U r) = rune_title U r.
Proof.
  intros HU. unfold rune_title at 2 3. destruct (r <? 128)%N eqn:E.
  - unfold is_lower_ascii, in_range. destruct ((97 <=? r) && (r <=? 122))%N eqn:E2.
    + unfold rune_title. replace (r - 32 <? 128)%N with true by lia.
      unfold is_lower_ascii, in_range. now replace ((97 <=? r - 32) && (r - 32 <=? 122))%N with false by lia.
    + unfold rune_title. rewrite E. unfold is_lower_ascii, in_range. now rewrite E2.
  - apply (ut_idem U HU). lia.
Qed.

Lemma rune_title_sep U r :
  unicode_ok U -> is_separator U (rune_title U r) = is_separator U r.
Proof.
  intros HU. unfold rune_title. destruct (r <? 128)%N eqn:E.
  - unfold is_separator, is_lower_ascii, is_upper_ascii, is_digit_rune, in_range.
    destruct ((97 <=? r) && (r <=? 122))%N eqn:E2; rewrite ?E.
    + replace (r - 32 <? 128)%N with true by lia. f_equal. lia.
    + rewrite E2. reflexivity.
  - apply (ut_sep U HU). lia.
Qed.

Lemma title_runes_valid U p rs :
  unicode_ok U -> Forall (fun r => valid_rune r = true) rs ->
  Forall (fun r => valid_rune r = true) (title_runes U p rs).
Proof.
  intros HU H; revert p; induction H as [|r rs Hr _ IH]; intros p; simpl; constructor; auto.
  destruct (is_separator U p); [now apply rune_title_valid|exact Hr].
Qed.

Lemma title_runes_idem U rs : forall p p',
  unicode_ok U -> is_separator U p = is_separator U p' ->
  title_runes U p' (title_runes U p rs) = title_runes U p rs.
Proof.
  induction rs as [|r rs IH]; intros p p' HU Hs; [reflexivity|]. simpl.
  rewrite <- Hs. destruct (is_separator U p) eqn:E.
  - rewrite rune_title_idem by exact HU. f_equal.
    apply IH; [exact HU|]. symmetry; now apply rune_title_sep.
  - f_equal. now apply IH.
Qed.

Lemma title_idem U s : unicode_ok U -> title U (title U s) = title U s.
Proof.
  intros HU. unfold title. rewrite utf8_decode_encode.
  - now rewrite title_runes_idem.
  - apply title_runes_valid; [exact HU|apply utf8_decode_valid].
Qed.

Lemma title_nil U s : title U s = [] <-> s = [].
Proof.
  unfold title. split; [|intros ->; reflexivity].
  intros H. apply utf8_encode_nil_inv in H.
  destruct (utf8_decode s) eqn:E; [now apply utf8_decode_nil_inv in E|discriminate].
Qed.

(** ** Hex *)

Lemma hex_char_inj x y : (x < 16)%N -> (y < 16)%N -> hex_char x = hex_char y -> x = y.
Proof.
  unfold hex_char; intros Hx Hy H.
  destruct (x <? 10)%N eqn:E1, (y <? 10)%N eqn:E2;
    apply (f_equal vb) in H; rewrite !vb_bv in H by lia; lia.
Qed.

Lemma hex_encode_inj x y : hex_encode x = hex_encode y -> x = y.
Proof.
  revert y; induction x as [|c x IH]; intros [|d y]; simpl; try congruence.
  intros [= H1 H2 H3]. f_equal; [|auto].
  pose proof (vb_lt c). pose proof (vb_lt d).
  apply hex_char_inj in H1, H2; try lia. apply vb_inj. lia.
Qed.

Lemma hex_encode_length x : length (hex_encode x) = 2 * length x.
Proof. induction x; simpl; lia. Qed.

(** ** White space *)

Lemma space_width_pos_head s k :
  space_width s = S k -> exists c s', s = c :: s' /\ (is_space (vb c) = true \/ (128 <= vb c)%N).
Proof.
  destruct s as [|c0 s1]; simpl; [discriminate|]. intros H. exists c0, s1; split; [reflexivity|].
  destruct (is_space (vb c0) && (vb c0 <? 128)%N) eqn:E0; [left; apply andb_true_iff in E0; tauto|]. right.
  destruct s1 as [|c1 s2]; [discriminate|].
  destruct (ok2 c0 c1 && is_space (rune2 c0 c1)) eqn:E2.
  { apply andb_true_iff in E2; destruct E2 as [E2 _]. unfold ok2, in_range in E2. lia. }
  destruct s2 as [|c2 s3]; [discriminate|].
  destruct (ok3 c0 c1 c2) eqn:E3; [|discriminate].
  unfold ok3, in_range in E3.
  destruct (vb c0 =? 224)%N eqn:A; [lia|]. destruct (vb c0 =? 237)%N eqn:B; lia.
Qed.

(** A byte that is ASCII and not white space. *)
Definition plain_byte (c : ascii) : bool := (vb c <? 128)%N && negb (is_space (vb c)).

Lemma space_width_plain c s : plain_byte c = true -> space_width (c :: s) = 0.
Proof.
  intros H. destruct (space_width (c :: s)) eqn:E; [reflexivity|].
  apply space_width_pos_head in E. destruct E as (c' & s' & [= <- <-] & Hc).
  unfold plain_byte in H. apply andb_true_iff in H; destruct H as [H1 H2].
  destruct Hc as [Hc|Hc]; [now rewrite Hc in H2|lia].
Qed.

Lemma space_width_rev_plain c s : plain_byte c = true -> space_width_rev (c :: s) = 0.
Proof.
  unfold plain_byte. intros H. apply andb_true_iff in H; destruct H as [H H'].
  apply negb_true_iff in H'. simpl. rewrite H'; simpl.
  destruct s as [|c1 s2]; [reflexivity|].
  replace (ok2 c1 c) with false by (unfold ok2, is_cont, in_range; lia). simpl.
  destruct s2 as [|c2 s3]; [reflexivity|].
  now replace (ok3 c2 c1 c) with false by (unfold ok3, is_cont, in_range; lia).
Qed.

Lemma drop_units_plain c s : plain_byte c = true -> drop_units space_width 0 (c :: s) = c :: s.
Proof.
  intros H. unfold drop_units; fold drop_units.
  now rewrite space_width_plain.
Qed.

Lemma drop_units_rev_plain c s :
  plain_byte c = true -> drop_units space_width_rev 0 (c :: s) = c :: s.
Proof.
  intros H. unfold drop_units; fold drop_units.
  now rewrite space_width_rev_plain.
Qed.

(** A text whose first and last bytes are plain is not trimmed. *)
Lemma trim_space_plain s c d :
  hd_error s = Some c -> hd_error (rev s) = Some d ->
  plain_byte c = true -> plain_byte d = true -> trim_space s = s.
Proof.
  intros Hc Hd Pc Pd. unfold trim_space.
  destruct s as [|c' s]; [discriminate|]. injection Hc as ->.
  rewrite drop_units_plain by exact Pc.
  destruct (rev (c :: s)) as [|d' r] eqn:E; [discriminate|]. injection Hd as ->.
  rewrite drop_units_rev_plain by exact Pd. rewrite <- E. apply rev_involutive.
Qed.

Lemma trim_space_all_plain s : forallb plain_byte s = true -> trim_space s = s.
Proof.
  intros H. destruct s as [|c s]; [reflexivity|].
  destruct (rev (c :: s)) as [|d r] eqn:E.
  { apply (f_equal (@rev ascii)) in E. rewrite rev_involutive in E. discriminate. }
  rewrite forallb_forall in H.
  eapply trim_space_plain with (c := c) (d := d).
  - reflexivity.
  - now rewrite E.
  - apply H; now left.
  - apply H. apply in_rev. rewrite E. now left.
Qed.

Lemma fields_aux_plain s cur rest :
  forallb plain_byte s = true ->
  fields_aux 0 cur (s ++ rest) = fields_aux 0 (rev s ++ cur) rest.
Proof.
  revert cur; induction s as [|c s IH]; intros cur H; [reflexivity|].
  simpl in H. apply andb_true_iff in H; destruct H as [Hc Hs].
  change ((c :: s) ++ rest) with (c :: (s ++ rest)).
  unfold fields_aux; fold fields_aux. rewrite space_width_plain by exact Hc.
  rewrite IH by exact Hs. simpl. now rewrite <- app_assoc.
Qed.

Lemma fields_plain s : forallb plain_byte s = true -> s <> [] -> fields s = [s].
Proof.
  intros H Hn. unfold fields. rewrite <- (app_nil_r s) at 1.
  rewrite fields_aux_plain by exact H. rewrite app_nil_r. simpl.
  destruct (rev s) eqn:E.
  - apply (f_equal (@rev ascii)) in E. rewrite rev_involutive in E. now subst.
  - rewrite <- E. now rewrite rev_involutive.
Qed.

Lemma fields_plain_sp s rest :
  forallb plain_byte s = true -> s <> [] ->
  exists l, fields (s ++ " "%char :: rest) = s :: l.
Proof.
  intros H Hn. unfold fields. rewrite fields_aux_plain by exact H. rewrite app_nil_r.
  exists (fields_aux 0 [] rest).
  unfold fields_aux at 1; fold fields_aux.
  change (space_width (" "%char :: rest)) with 1.
  destruct (rev s) eqn:E.
  - apply (f_equal (@rev ascii)) in E. rewrite rev_involutive in E. now subst.
  - rewrite <- E. now rewrite rev_involutive.
Qed.

Lemma hex_char_plain x : (x < 16)%N -> plain_byte (hex_char x) = true.
Proof.
  intros H. unfold plain_byte, hex_char, is_space, in_range.
  destruct (x <? 10)%N eqn:E; rewrite vb_bv by lia; lia.
Qed.

Lemma hex_encode_plain s : forallb plain_byte (hex_encode s) = true.
Proof.
  induction s as [|c s IH]; [reflexivity|]. simpl. pose proof (vb_lt c).
  rewrite !hex_char_plain by lia. exact IH.
Qed.

(** ** Scanln *)

Definition no_space (rs : list rune) : bool := forallb (fun r => negb (is_space r)) rs.

Lemma scan_token_app t rest :
  no_space t = true ->
  (rest = [] \/ exists r rest', rest = r :: rest' /\ is_space r = true) ->
  scan_token (t ++ rest) = (t, rest).
Proof.
  intros H Hr. induction t as [|r t IH]; simpl.
  - destruct Hr as [->|(r & rest' & -> & Hr)]; [reflexivity|]. simpl. now rewrite Hr.
  - simpl in H. apply andb_true_iff in H; destruct H as [H1 H2].
    apply negb_true_iff in H1. rewrite H1. now rewrite IH.
Qed.

Lemma scan_skip_token t rest :
  no_space t = true -> t <> [] -> scan_skip (t ++ rest) = (Some (t ++ rest), t ++ rest).
Proof.
  intros H Hn. destruct t as [|r t]; [congruence|]. simpl in *.
  apply andb_true_iff in H; destruct H as [H1 H2]. apply negb_true_iff in H1.
  destruct (r =? 10)%N eqn:E; [apply N.eqb_eq in E; subst; discriminate|].
  now rewrite H1.
Qed.

(** A word followed by a newline is read as that word. *)
Lemma scanln_word t rest :
  no_space t = true -> t <> [] ->
  scanln (t ++ 10%N :: rest) = (utf8_encode t, rest).
Proof.
  intros H Hn. unfold scanln. rewrite scan_skip_token by assumption.
  destruct (t ++ 10%N :: rest) as [|r l] eqn:E; [destruct t; discriminate|].
  rewrite <- E. rewrite scan_token_app; [reflexivity|exact H|].
  right. exists 10%N, rest. auto.
Qed.

Lemma scanln_blank rest : scanln (10%N :: rest) = ([], rest).
Proof. reflexivity. Qed.

Lemma scanln_eof : scanln [] = ([], []).
Proof. reflexivity. Qed.

(** What Scanln yields never contains white space. *)
Lemma scan_token_no_space rs t rest : scan_token rs = (t, rest) -> no_space t = true.
Proof.
  revert t rest; induction rs as [|r rs IH]; simpl; intros t rest.
  - intros [= <- <-]; reflexivity.
  - destruct (is_space r) eqn:E; [intros [= <- <-]; reflexivity|].
    destruct (scan_token rs) as [t' rest'] eqn:E2. intros [= <- <-]. simpl.
    rewrite E. simpl. eapply IH; reflexivity.
Qed.

(** ** Trimming a text that neither starts nor ends with white space *)

Lemma vb_bv_small n : (n < 256)%N -> vb (bv n) = n.
Proof. apply vb_bv. Qed.

Lemma enc_rune_valid_form r : exists r', valid_rune r' = true /\ enc_rune r = enc_valid r' /\
  (is_space r = false -> is_space r' = false).
Proof.
  unfold enc_rune. destruct (valid_rune r) eqn:E; [exists r; auto|].
  exists rune_error. repeat split; reflexivity.
Qed.

Lemma space_width_enc r s : is_space r = false -> space_width (enc_rune r ++ s) = 0.
Proof.
  destruct (enc_rune_valid_form r) as (r' & Hv & -> & Hs'). intros Hs. specialize (Hs' Hs). clear Hs r.
  unfold valid_rune, in_range in Hv. unfold enc_valid.
  destruct (N.ltb_spec r' 128).
  - cbn [app]. apply space_width_plain. unfold plain_byte. rewrite vb_bv_small by lia. rewrite Hs'. lia.
  - destruct (N.ltb_spec r' 2048); [|destruct (N.ltb_spec r' 65536)]; cbn [app space_width];
      rewrite !vb_bv_small by lia;
      (replace (_ <? 128)%N with false by lia); rewrite andb_false_r.
    + replace (rune2 _ _) with r' by (unfold rune2; rewrite !vb_bv_small by lia; lia).
      rewrite Hs', andb_false_r. destruct s as [|c s]; [reflexivity|].
      replace (ok3 _ _ _) with false; [reflexivity|]. unfold ok3, in_range. rewrite !vb_bv_small by lia.
      symmetry. apply andb_false_intro2. destruct (_ =? 224)%N eqn:E1; [lia|]. destruct (_ =? 237)%N eqn:E2; lia.
    + replace (ok2 _ _) with false by (unfold ok2, in_range; rewrite !vb_bv_small by lia; lia). cbn [andb].
      replace (rune3 _ _ _) with r' by (unfold rune3; rewrite !vb_bv_small by lia; lia).
      rewrite Hs', andb_false_r. reflexivity.
    + replace (ok2 _ _) with false by (unfold ok2, in_range; rewrite !vb_bv_small by lia; lia). cbn [andb].
      replace (ok3 _ _ _) with false; [reflexivity|]. unfold ok3, in_range. rewrite !vb_bv_small by lia.
      symmetry. apply andb_false_intro2. destruct (_ =? 224)%N eqn:E1; [lia|]. destruct (_ =? 237)%N eqn:E2; lia.
Qed.

Lemma space_width_rev_enc r s : is_space r = false -> space_width_rev (rev (enc_rune r) ++ s) = 0.
Proof.
  destruct (enc_rune_valid_form r) as (r' & Hv & -> & Hs'). intros Hs. specialize (Hs' Hs). clear Hs r.
  unfold valid_rune, in_range in Hv. unfold enc_valid.
  destruct (N.ltb_spec r' 128).
  - cbn [app rev]. apply space_width_rev_plain. unfold plain_byte. rewrite vb_bv_small by lia. rewrite Hs'. lia.
  - destruct (N.ltb_spec r' 2048); [|destruct (N.ltb_spec r' 65536)]; cbn [rev app space_width_rev];
      rewrite !vb_bv_small by lia;
      (replace (_ <? 128)%N with false by lia); rewrite andb_false_r.
    + replace (rune2 _ _) with r' by (unfold rune2; rewrite !vb_bv_small by lia; lia).
      rewrite Hs', andb_false_r. destruct s as [|c s]; [reflexivity|].
      replace (ok3 _ _ _) with false; [reflexivity|]. unfold ok3, is_cont, in_range. rewrite !vb_bv_small by lia.
      symmetry. apply andb_false_intro2. destruct (_ =? 224)%N eqn:E1; [lia|]. destruct (vb c =? 237)%N eqn:E2; lia.
    + replace (ok2 _ _) with false by (unfold ok2, in_range; rewrite !vb_bv_small by lia; lia). cbn [andb].
      replace (rune3 _ _ _) with r' by (unfold rune3; rewrite !vb_bv_small by lia; lia).
      rewrite Hs', andb_false_r. reflexivity.
    + replace (ok2 _ _) with false by (unfold ok2, in_range; rewrite !vb_bv_small by lia; lia). cbn [andb].
      replace (ok3 _ _ _) with false; [reflexivity|]. unfold ok3, in_range. rewrite !vb_bv_small by lia.
      symmetry. apply andb_false_intro2. destruct (_ =? 224)%N eqn:E1; [lia|]. destruct (_ =? 237)%N eqn:E2; lia.
Qed.

Lemma enc_rune_nonempty r : enc_rune r <> [].
Proof.
  unfold enc_rune, enc_valid. generalize (if valid_rune r then r else rune_error). intros x.
  destruct (x <? 128)%N; [|destruct (x <? 2048)%N; [|destruct (x <? 65536)%N]]; discriminate.
Qed.

Lemma drop_units_none f s : f s = 0 -> drop_units f 0 s = s.
Proof. destruct s as [|c s]; [reflexivity|]. cbn [drop_units]. now intros ->. Qed.

Lemma trim_space_word rs : no_space rs = true -> trim_space (utf8_encode rs) = utf8_encode rs.
Proof.
  intros H. unfold trim_space. destruct rs as [|r rs]; [reflexivity|].
  unfold no_space in H. rewrite forallb_forall in H.
  assert (Hr : is_space r = false) by (apply negb_true_iff, H; now left).
  rewrite (drop_units_none space_width) by (cbn [utf8_encode]; now apply space_width_enc).
  destruct (@exists_last _ (r :: rs) ltac:(discriminate)) as (x & z & Hz). rewrite Hz.
  assert (Hz' : is_space z = false).
  { apply negb_true_iff, H. rewrite Hz. apply in_or_app. right. now left. }
  rewrite utf8_encode_app, rev_app_distr. cbn [utf8_encode]. rewrite app_nil_r.
  rewrite (drop_units_none space_width_rev) by now apply space_width_rev_enc.
  rewrite rev_app_distr, !rev_involutive. reflexivity.
Qed.

(** A line of one word, or an empty line. *)
Lemma scanln_line t rest :
  no_space t = true -> scanln (t ++ 10%N :: rest) = (utf8_encode t, rest).
Proof. intros H. destruct t as [|r t]; [reflexivity|]. now apply scanln_word. Qed.

(** ** Numerals *)

Lemma digit_model c : digit c <-> is_digit c = true.
Proof. unfold digit, is_digit, in_range. rewrite andb_true_iff, !N.leb_le. tauto. Qed.

Lemma digits_model s n : digits_of s n <->
  s <> [] /\ forallb is_digit s = true /\ fold_left (fun n c => (n * 10 + digit_val c)%N) s 0%N = n.
Proof.
  unfold digits_of. assert (H : Forall digit s <-> forallb is_digit s = true).
  { rewrite Forall_forall, forallb_forall. split; intros H c Hc; apply digit_model, H, Hc. }
  rewrite H. reflexivity.
Qed.

Lemma parse_uint_loop_inv s : forall n m, parse_uint_loop n s = (m, PFine) ->
  forallb is_digit s = true /\ fold_left (fun n c => (n * 10 + digit_val c)%N) s n = m.
Proof.
  induction s as [|c s IH]; intros n m; cbn [parse_uint_loop].
  - intros [= <-]. auto.
  - destruct (is_digit c) eqn:Ed; cbn [negb]; [|discriminate].
    destruct (1844674407370955162 <=? n)%N; [discriminate|].
    destruct (18446744073709551615 <? n * 10 + digit_val c)%N; [discriminate|].
    intros H. apply IH in H. destruct H as [H1 H2]. cbn [forallb fold_left]. rewrite Ed, H1. auto.
Qed.

Lemma parse_int_numeral s z :
  parse_int s = (z, true) <-> numeral s z /\ (min_int64 <= z <= max_int64)%Z.
Proof.
  split.
  - intros H. split; [|apply (parse_int_range s); now rewrite H].
    unfold parse_int in H. destruct s as [|c s]; [discriminate|].
    destruct (parse_uint _) as [un st] eqn:Eu. destruct st; try discriminate.
    + assert (Hd : digits_of (if Ascii.eqb c "-" || Ascii.eqb c "+" then s else c :: s) un).
      { unfold parse_uint in Eu. destruct (if Ascii.eqb c "-" || Ascii.eqb c "+" then s else c :: s) eqn:El; [discriminate|].
        apply parse_uint_loop_inv in Eu. destruct Eu as [Eu1 Eu2]. apply digits_model. split; [discriminate|]. split; assumption. }
      exists (if Ascii.eqb c "-" || Ascii.eqb c "+" then s else c :: s), un. split; [exact Hd|].
      destruct (Ascii.eqb_spec c "-"); [subst c|destruct (Ascii.eqb_spec c "+"); [subst c|]]; cbn [orb andb negb] in *.
      * right. destruct (_ <? un)%N; [discriminate|]. injection H as <-. auto.
      * left. destruct (_ <=? un)%N; [discriminate|]. injection H as <-. auto.
      * left. destruct (_ <=? un)%N; [discriminate|]. injection H as <-. auto.
    + destruct (negb _ && _); [discriminate|]. destruct (_ && _); discriminate.
  - intros [(ds & n & Hm & Hz) Hr]. apply digits_model in Hm. destruct Hm as (Hn & Hd & Hv). unfold min_int64, max_int64 in Hr.
    assert (Hb : (n <= 9223372036854775808)%N).
    { destruct Hz as [[_ ->]|[_ ->]]; lia. }
    assert (Hp : parse_uint ds = (n, PFine)).
    { unfold parse_uint. destruct ds as [|c ds]; [congruence|].
      rewrite parse_uint_loop_ok; [now rewrite Hv|exact Hd|rewrite Hv; lia]. }
    destruct Hz as [[[->| ->] ->]|[-> ->]]; unfold parse_int.
    + destruct ds as [|c ds]; [congruence|].
      assert (Hc : Ascii.eqb c "-" = false /\ Ascii.eqb c "+" = false).
      { cbn [forallb] in Hd. apply andb_true_iff in Hd. destruct Hd as [Hd _].
        split; apply Ascii.eqb_neq; intros ->; discriminate. }
      destruct Hc as [-> ->]. cbn [orb]. rewrite Hp. cbn [negb andb].
      destruct (_ <=? n)%N eqn:E; [lia|]. reflexivity.
    + change (Ascii.eqb "+" "-") with false. change (Ascii.eqb "+" "+") with true. cbn [orb]. rewrite Hp. cbn [negb andb].
      destruct (_ <=? n)%N eqn:E; [lia|]. reflexivity.
    + change (Ascii.eqb "-" "-") with true. cbn [orb]. rewrite Hp. cbn [negb andb].
      destruct (_ <? n)%N eqn:E; [lia|]. reflexivity.
Qed.

Lemma numeral_itoa z : (min_int64 <= z <= max_int64)%Z -> numeral (itoa z) z.
Proof. intros H. apply parse_int_numeral. now apply parse_int_itoa. Qed.

(** Numbers are written in the usual way. *)
Lemma usual_dec n : usual_numeral (dec_of_N n) n.
Proof.
  split.
  - apply digits_model. split; [apply dec_of_N_nonempty|]. split; [apply dec_of_N_digits|apply dec_val_of_N].
  - induction n as [n IH] using (well_founded_induction N.lt_wf_0). intros s' E. destruct (N.lt_ge_cases n 10) as [Hn|Hn].
    + rewrite dec_of_N_small in E by exact Hn. now injection E.
    + rewrite dec_of_N_step in E by exact Hn. destruct (dec_of_N (n / 10)) as [|c t] eqn:Ed; [now elim (dec_of_N_nonempty (n / 10))|].
      cbn in E. injection E as -> E. assert (Hlt : (n / 10 < n)%N) by (apply N.div_lt; lia). specialize (IH _ Hlt t Ed). subst t.
      assert (V := dec_val_of_N (n / 10)). rewrite Ed in V. change (dec_val ["0"%char]) with 0%N in V.
      assert (1 <= n / 10)%N by (apply N.div_le_lower_bound; lia). lia.
Qed.

Lemma usual_itoa n : usual_numeral (itoa (Z.of_nat n)) (N.of_nat n).
Proof. unfold itoa. destruct (Z.ltb_spec (Z.of_nat n) 0); [lia|]. replace (Z.to_N (Z.of_nat n)) with (N.of_nat n) by lia. apply usual_dec. Qed.
