(** When a release counts as newer (C56), for every version text. *)
From Verif Require Import Base Utf8 Spec_Numeral GoStrings GoStringsProof Json Path Fs Domain World WorldProof Config Updater UpdateProof
  Spec_Release Properties_Update Properties_Check.

Definition value (s : bytes) (n : N) : N := fold_left (fun n c => (n * 10 + digit_val c)%N) s n.
Definition M64 : N := 18446744073709551615.

(** ** Numbers that are too large *)

Lemma loop_cases s : forall n, (n <= M64)%N ->
  match parse_uint_loop n s with
  | (m, PFine) => forallb is_digit s = true /\ value s n = m /\ (m <= M64)%N
  | (m, PRange) => m = M64 /\ exists p rest, s = p ++ rest /\ forallb is_digit p = true /\ p <> [] /\ (M64 < value p n)%N
  | (_, PSyntax) => forallb is_digit s = false /\
      forall p rest, s = p ++ rest -> forallb is_digit p = true -> (value p n <= M64)%N
  end.
Proof.
  induction s as [|c s IH]; intros n Hn; cbn [parse_uint_loop]; [repeat split; assumption|].
  destruct (is_digit c) eqn:Ed; cbn [negb].
  2: { split; [cbn [forallb]; now rewrite Ed|]. intros [|x p] rest Hs Hp; [exact Hn|].
       cbn in Hs. injection Hs as <- _. cbn [forallb] in Hp. rewrite Ed in Hp. discriminate. }
  destruct (N.leb_spec 1844674407370955162 n) as [Hl|Hl].
  { split; [reflexivity|]. exists [c], s. repeat split; [cbn [forallb]; now rewrite Ed|discriminate|].
    unfold value, M64. cbn [fold_left]. lia. }
  destruct (N.ltb_spec 18446744073709551615 (n * 10 + digit_val c)) as [Hg|Hg].
  { split; [reflexivity|]. exists [c], s. repeat split; [cbn [forallb]; now rewrite Ed|discriminate|exact Hg]. }
  specialize (IH (n * 10 + digit_val c)%N Hg). destruct (parse_uint_loop (n * 10 + digit_val c) s) as [m [| |]].
  - destruct IH as (I1 & I2 & I3). cbn [forallb]. rewrite Ed. auto.
  - destruct IH as (I1 & I2). cbn [forallb]. rewrite Ed. split; [exact I1|]. intros [|x p] rest Hs Hp; [exact Hn|].
    cbn in Hs. injection Hs as <- Hs. cbn [forallb] in Hp. rewrite Ed in Hp. exact (I2 p rest Hs Hp).
  - destruct IH as (I1 & p & rest & I2 & I3 & I4 & I5). split; [exact I1|]. exists (c :: p), rest. cbn [forallb]. rewrite Ed, I2, I3.
    repeat split; [discriminate|exact I5].
Qed.

Lemma value_app p q n : value (p ++ q) n = value q (value p n).
Proof. apply fold_left_app. Qed.
Lemma value_grows q n : (n <= value q n)%N.
Proof. apply fold_dec_bound. Qed.

Lemma sign_split c s : exists neg ds, parse_int (c :: s) =
    (let (un, st) := parse_uint ds in
      match st with
      | PSyntax => (0%Z, false)
      | _ =>
          if negb neg && (9223372036854775808 <=? un)%N then (max_int64, false)
          else if neg && (9223372036854775808 <? un)%N then (min_int64, false)
          else ((if neg then - Z.of_N un else Z.of_N un)%Z,
                match st with PFine => true | _ => false end)
      end) /\
  (neg = true -> c = "-"%char) /\ (neg = false -> c <> "-"%char) /\
  ((c = "+"%char \/ c = "-"%char) /\ ds = s \/ (c <> "+"%char /\ c <> "-"%char) /\ ds = c :: s).
Proof.
  exists (Ascii.eqb c "-"), (if Ascii.eqb c "-" || Ascii.eqb c "+" then s else c :: s). split; [reflexivity|].
  destruct (Ascii.eqb_spec c "-"), (Ascii.eqb_spec c "+"); cbn [orb]; repeat split; auto; try discriminate; try congruence; tauto.
Qed.

(** For a bound below the largest number. *)
Lemma parse_int_above s k : (0 <= k < max_int64)%Z -> (k < fst (parse_int s))%Z <-> reads_above s k.
Proof.
  intros Hk. unfold max_int64 in Hk. destruct s as [|c s].
  { split; [cbn; lia|]. intros (p & rest & z & Hs & (ds & n & (Hne & _) & Hz) & _). symmetry in Hs. apply app_eq_nil in Hs.
    destruct Hs as [-> _]. destruct Hz as [[[H|H] _]|[H _]]; [congruence|discriminate|discriminate]. }
  destruct (sign_split c s) as (neg & ds & -> & Hn1 & Hn2 & Hds).
  assert (Hin : forall p rest z, c :: s = p ++ rest -> numeral p z -> (0 < z)%Z ->
    neg = false /\ exists q, ds = q ++ rest /\ q <> [] /\ forallb is_digit q = true /\ z = Z.of_N (value q 0)).
  { intros p rest z Hs (q & n & Hqm & Hz) Hpos. apply digits_model in Hqm. destruct Hqm as (Hq1 & Hq2 & Hq3). fold (value q 0) in Hq3. subst n.
    assert (Hqc : forall x q', q = x :: q' -> x <> "+"%char /\ x <> "-"%char).
    { intros x q' ->. cbn [forallb] in Hq2. apply andb_true_iff in Hq2. destruct Hq2 as [Hq2 _]. split; intros ->; discriminate. }
    destruct Hz as [[[-> | ->] ->]|[-> ->]]; [| |lia].
    - destruct q as [|x q]; [congruence|]. destruct (Hqc x q eq_refl) as [Hx1 Hx2]. cbn in Hs. injection Hs as -> Hs.
      split; [destruct neg; [now elim Hx2; apply Hn1|reflexivity]|]. exists (x :: q).
      destruct Hds as [[[?|?] _]|[_ ->]]; [congruence|congruence|]. rewrite Hs. repeat split; assumption.
    - cbn in Hs. injection Hs as -> Hs. split; [destruct neg; [now specialize (Hn1 eq_refl)|reflexivity]|]. exists q.
      destruct Hds as [[_ ->]|[[? _] _]]; [|congruence]. repeat split; assumption. }
  assert (Hout : neg = false -> forall q rest, ds = q ++ rest -> q <> [] -> forallb is_digit q = true ->
    exists p, c :: s = p ++ rest /\ numeral p (Z.of_N (value q 0))).
  { intros Hneg q rest Hq Hq1 Hq2. assert (Hd : digits_of q (value q 0)) by (apply digits_model; split; [exact Hq1|split; [exact Hq2|reflexivity]]).
    destruct Hds as [[[Hc|Hc] E]|[[Hc1 Hc2] E]].
    - exists ("+"%char :: q). split; [cbn; congruence|]. exists q, (value q 0). auto.
    - elim (Hn2 Hneg Hc).
    - exists q. split; [congruence|]. exists q, (value q 0). auto. }
  assert (Hu : parse_uint ds = match ds with [] => (0%N, PSyntax) | _ => parse_uint_loop 0 ds end) by (destruct ds; reflexivity).
  rewrite Hu. destruct ds as [|d ds].
  { cbn [fst]. split; [lia|]. intros (p & rest & z & Hs & Hnum & Hkz & _).
    destruct (Hin p rest z Hs Hnum ltac:(lia)) as (_ & q & Hq & Hq1 & _). symmetry in Hq. apply app_eq_nil in Hq. tauto. }
  assert (L := loop_cases (d :: ds) 0%N ltac:(unfold M64; lia)). destruct (parse_uint_loop 0 (d :: ds)) as [un [| |]].
  - destruct L as (L1 & L2 & L3). assert (Hone : neg = false -> (k < Z.of_N un)%Z <-> reads_above (c :: s) k).
    { intros Hneg. split.
      - intros Hlt. destruct (Hout Hneg (d :: ds) [] ltac:(now rewrite app_nil_r) ltac:(discriminate) L1) as (p & Hp & Hnum).
        rewrite L2 in Hnum. exists p, [], (Z.of_N un). auto.
      - intros (p & rest & z & Hs & Hnum & Hkz & Hrest). destruct (Hin p rest z Hs Hnum ltac:(lia)) as (_ & q & Hq & Hq1 & Hq2 & ->).
        rewrite <- L2, Hq, value_app. assert (G := value_grows rest (value q 0)). lia. }
    unfold M64 in L3. destruct neg; cbn [negb andb].
    + split.
      * destruct (_ <? un)%N; cbn [fst]; unfold min_int64; lia.
      * intros (p & rest & z & Hs & Hnum & Hkz & _). destruct (Hin p rest z Hs Hnum ltac:(lia)) as (? & _). discriminate.
    + rewrite <- (Hone eq_refl). destruct (N.leb_spec 9223372036854775808 un); cbn [fst]; unfold max_int64; lia.
  - destruct L as (L1 & L2). cbn [fst]. split; [lia|]. intros (p & rest & z & Hs & Hnum & Hkz & Hrest).
    destruct (Hin p rest z Hs Hnum ltac:(lia)) as (_ & q & Hq & Hq1 & Hq2 & ->). specialize (L2 q rest Hq Hq2). unfold M64 in L2.
    destruct Hrest as [->|Hrest]; [|lia]. rewrite app_nil_r in Hq. congruence.
  - destruct L as (-> & q & rest & Hq & Hq2 & Hq1 & Hbig). destruct neg; cbn [negb andb].
    + change (9223372036854775808 <? M64)%N with true. cbn [fst]. split; [unfold min_int64; lia|].
      intros (p & rest' & z & Hs & Hnum & Hkz & _). destruct (Hin p rest' z Hs Hnum ltac:(lia)) as (? & _). discriminate.
    + change (9223372036854775808 <=? M64)%N with true. cbn [fst]. split; [|unfold max_int64; lia]. intros _.
      destruct (Hout eq_refl q rest Hq Hq1 Hq2) as (p & Hp & Hnum). exists p, rest, (Z.of_N (value q 0)).
      unfold M64 in Hbig. repeat split; [exact Hp|exact Hnum|lia|right; lia].
Qed.

(** ** C56 *)

Lemma replace_dots v : replace_byte "."%char [] v = without_dots v.
Proof.
  unfold replace_byte, without_dots. induction v as [|c v IH]; [reflexivity|]. cbn [flat_map filter]. rewrite IH.
  destruct (Ascii.eqb c "."); reflexivity.
Qed.

(** The rule the program follows, for every version text: take the dots away; what remains must be a decimal
    number above 131 (an overlong number may have anything after it). *)
Theorem C56_rule_partial : forall w info, snd (fetch_info w) = Ok (Val (Some info)) ->
  (ui_newer info = true <-> reads_above (without_dots (ui_version info)) 131).
Proof.
  intros w info H. rewrite (fetch_newer _ _ H), Z.ltb_lt. unfold version_number at 2. rewrite replace_dots.
  change (version_number app_version) with 131%Z. apply parse_int_above. unfold max_int64. lia.
Qed.
Print Assumptions C56_rule_partial.

Lemma value_shift s : forall n, value s n = (n * 10 ^ N.of_nat (length s) + value s 0)%N.
Proof.
  induction s as [|c s IH]; intros n; [cbn; lia|]. change (value (c :: s) n) with (value s (n * 10 + digit_val c)%N).
  change (value (c :: s) 0) with (value s (0 * 10 + digit_val c)%N). rewrite (IH (n * 10 + digit_val c)%N), (IH (0 * 10 + digit_val c)%N).
  cbn [length]. rewrite Nat2N.inj_succ, N.pow_succ_r'. lia.
Qed.

Definition width (n : N) : N := (10 ^ N.of_nat (length (dec_of_N n)))%N.
Lemma value_dec n : value (dec_of_N n) 0 = n.
Proof. apply dec_val_of_N. Qed.
Lemma is_digit_small c : is_digit c = true -> (digit_val c <= 9)%N.
Proof. unfold is_digit, digit_val, in_range. intros H. lia. Qed.
Lemma value_bound s : forallb is_digit s = true -> (value s 0 < 10 ^ N.of_nat (length s))%N.
Proof.
  induction s as [|c s IH]; intros H; [cbn; lia|]. cbn [forallb] in H. apply andb_true_iff in H. destruct H as [Hc H]. specialize (IH H).
  apply is_digit_small in Hc. change (value (c :: s) 0) with (value s (0 * 10 + digit_val c)%N). rewrite value_shift.
  cbn [length]. rewrite Nat2N.inj_succ, N.pow_succ_r'. nia.
Qed.
Lemma width_above n : (n < width n)%N.
Proof. unfold width. rewrite <- (value_dec n) at 1. apply value_bound, dec_of_N_digits. Qed.
Lemma width_small n : (n < 10)%N -> width n = 10%N.
Proof. intros H. unfold width. rewrite dec_of_N_small by exact H. reflexivity. Qed.
Lemma width_large n : (10 <= n)%N -> (100 <= width n)%N.
Proof.
  intros H. unfold width. assert (Hb := width_above n). unfold width in Hb.
  destruct (dec_of_N n) as [|a [|c l]]; [cbn in Hb; lia|cbn in Hb; lia|].
  cbn [length]. rewrite !Nat2N.inj_succ, !N.pow_succ_r'. assert (0 < 10 ^ N.of_nat (length l))%N by (apply N.neq_0_lt_0, N.pow_nonzero; discriminate). lia.
Qed.

Lemma without_dots_app u v : without_dots (u ++ v) = without_dots u ++ without_dots v.
Proof. apply filter_app. Qed.
Lemma without_dots_digits s : forallb is_digit s = true -> without_dots s = s.
Proof.
  induction s as [|c s IH]; intros H; [reflexivity|]. cbn [forallb] in H. apply andb_true_iff in H. destruct H as [Hc H].
  unfold without_dots in *. cbn [filter]. rewrite (IH H). destruct (Ascii.eqb_spec c "."); [subst c; discriminate|reflexivity].
Qed.

Lemma reads_above_digits s k : (0 <= k < 18446744073709551615)%Z -> s <> [] -> forallb is_digit s = true -> reads_above s k <-> (k < Z.of_N (value s 0))%Z.
Proof.
  intros Hk Hne Hd. split.
  - intros (p & rest & z & Hs & (q & n & (Hq1 & Hq2 & Hq3) & Hz) & Hkz & _). fold (value q 0) in Hq3. subst n.
    assert (Hp : p = q /\ z = Z.of_N (value q 0)).
    { destruct Hz as [[[-> | ->] ->]|[-> ->]]; [auto|cbn in Hs; subst s; discriminate|cbn in Hs; subst s; discriminate]. }
    destruct Hp as [-> ->]. rewrite Hs, value_app. assert (G := value_grows rest (value q 0)). lia.
  - intros H. exists s, [], (Z.of_N (value s 0)). rewrite app_nil_r. split; [reflexivity|]. split; [|auto].
    exists s, (value s 0). split; [apply digits_model; split; [exact Hne|split; [exact Hd|reflexivity]]|auto].
Qed.

(** For three components, and from 1.0.0 on, it is right but for 1.0.z, 1.1.z and 1.2.z with
    z of two digits or more, which are taken for newer. *)
Theorem C56_newer_partial : forall w info x y z,
  snd (fetch_info w) = Ok (Val (Some info)) -> ui_version info = version_text [x; y; z] -> (1 <= x)%N ->
  (ui_newer info = true <-> higher [x; y; z] [1; 3; 1]%N \/ (x = 1 /\ y < 3 /\ 10 <= z)%N).
Proof.
  intros w info x y z Hf Hv Hx. rewrite (C56_rule_partial _ _ Hf), Hv. cbn [version_text].
  rewrite !without_dots_app, !(without_dots_digits (dec_of_N _)) by apply dec_of_N_digits.
  change (without_dots (b ".")) with (@nil ascii). cbn [Datatypes.app].
  rewrite reads_above_digits; [|lia| |].
  2: { intros E. apply app_eq_nil in E. destruct E as [E _]. exact (dec_of_N_nonempty x E). }
  2: { rewrite !forallb_app, !dec_of_N_digits. reflexivity. }
  rewrite !value_app, (value_shift (dec_of_N z)), (value_shift (dec_of_N y)), !value_dec.
  change (10 ^ N.of_nat (length (dec_of_N z)))%N with (width z). change (10 ^ N.of_nat (length (dec_of_N y)))%N with (width y).
  assert (Wy := width_above y). assert (Wz := width_above z). cbn [higher].
  destruct (N.ltb_spec y 10) as [Hy|Hy]; [rewrite (width_small y Hy)|assert (Ly := width_large y Hy)];
  (destruct (N.ltb_spec z 10) as [Hz|Hz]; [rewrite (width_small z Hz)|assert (Lz := width_large z Hz)]).
  - lia.
  - assert (1000 <= (x * 10 + y) * width z)%N by nia. lia.
  - assert (100 <= x * width y)%N by nia. lia.
  - assert (100 <= x * width y)%N by nia. assert (10000 <= (x * width y + y) * width z)%N by nia. lia.
Qed.
Print Assumptions C56_newer_partial.

(** A version with a letter in front, like v2.0.0, is never taken for newer. *)
Theorem C56_letter_refuted : forall w info c v,
  snd (fetch_info w) = Ok (Val (Some info)) -> ui_version info = c :: v -> ~ digit c ->
  c <> "."%char -> c <> "+"%char -> c <> "-"%char -> ui_newer info = false.
Proof.
  intros w info c v Hf Hv Hd H1 H2 H3. apply not_true_iff_false. rewrite (C56_rule_partial _ _ Hf), Hv.
  unfold without_dots. cbn [filter]. apply Ascii.eqb_neq in H1. rewrite H1. cbn [negb].
  intros (p & rest & z & Hs & (q & n & (Hq1 & Hq2 & _) & Hz) & _).
  destruct Hz as [[[-> | ->] _]|[-> _]]; [|cbn in Hs; congruence|cbn in Hs; congruence].
  destruct q as [|x q]; [congruence|]. cbn in Hs. injection Hs as <- _. inversion Hq2; subst. contradiction.
Qed.
Print Assumptions C56_letter_refuted.

Example C56_rule_example : exists info, snd (fetch_info (update_world [NetBody (release (b "10.12.3")) true])) = Ok (Val (Some info)) /\
  ui_version info = version_text [10; 12; 3]%N /\ ui_newer info = true /\
  exists info2, snd (fetch_info (update_world [NetBody (release (b "v2.0.0")) true])) = Ok (Val (Some info2)) /\
  ui_version info2 = b "v2.0.0" /\ ui_newer info2 = false.
Proof.
  eexists. split; [vm_compute; reflexivity|]. split; [vm_compute; reflexivity|]. split; [reflexivity|].
  eexists. split; [vm_compute; reflexivity|]. split; vm_compute; reflexivity.
Qed.
