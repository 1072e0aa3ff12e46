(** Proofs about Domain.v. *)
From Verif Require Import Base Utf8 GoStrings GoStringsProof Float64 Float64Proof Json JsonProof
  Civil Spec_Civil CivilProof Domain Spec_Domain.
Open Scope res_scope.

(** ** Categories *)

Fixpoint nodupb (l : list bytes) : bool :=
  match l with
  | [] => true
  | x :: l' => negb (existsb (bytes_eqb x) l') && nodupb l'
  end.

Lemma nodupb_ok l : nodupb l = true -> NoDup l.
Proof.
  induction l as [|x l IH]; simpl; [constructor|].
  intros H. apply andb_true_iff in H. destruct H as [H1 H2].
  constructor; [|auto]. intros Hin. apply negb_true_iff in H1.
  assert (existsb (bytes_eqb x) l = true); [|congruence].
  apply existsb_exists. exists x. split; [exact Hin|apply bytes_eqb_refl].
Qed.

Lemma nodup_map_fst {A B} (l : list (A * B)) : NoDup (map fst l) -> NoDup l.
Proof.
  induction l as [|x l IH]; simpl; intros H; [constructor|].
  inversion H as [|? ? Hx Hl]; subst. constructor; [|auto].
  intros Hin. apply Hx. now apply in_map.
Qed.

Lemma incl_check (l l' : list (bytes * bytes)) :
  forallb (fun x => existsb (fun y => bytes_eqb (fst x) (fst y) && bytes_eqb (snd x) (snd y)) l') l
    = true -> incl l l'.
Proof.
  intros H [x1 x2] Hin. rewrite forallb_forall in H. specialize (H _ Hin).
  apply existsb_exists in H. destruct H as ([y1 y2] & Hy & E).
  apply andb_true_iff in E. destruct E as [E1 E2]. apply bytes_eqb_eq in E1, E2.
  simpl in *. subst. exact Hy.
Qed.

Lemma registry_perm_published :
  Permutation (map (fun c => (cat_code c, cat_name c)) registry) published.
Proof.
  apply NoDup_Permutation.
  - apply nodup_map_fst. apply nodupb_ok. reflexivity.
  - apply nodup_map_fst. apply nodupb_ok. reflexivity.
  - intros x. split; apply incl_check; reflexivity.
Qed.

Lemma registry_codes_nodup : NoDup (map cat_code registry).
Proof. apply nodupb_ok. reflexivity. Qed.

Lemma registry_codes_inj c d :
  In c registry -> In d registry -> cat_code c = cat_code d -> c = d.
Proof.
  pose proof registry_codes_nodup as H. revert H. generalize registry.
  induction l as [|x l IH]; simpl; [tauto|].
  intros Hn Hc Hd E. inversion Hn as [|? ? Hx Hl]; subst.
  destruct Hc as [->|Hc], Hd as [->|Hd]; auto.
  - exfalso; apply Hx. rewrite E. now apply in_map.
  - exfalso; apply Hx. rewrite <- E. now apply in_map.
Qed.

Lemma in_published c : In (cat_code c, cat_name c) published <-> In c registry.
Proof.
  split.
  - intros H. apply (Permutation_in _ (Permutation_sym registry_perm_published)) in H.
    apply in_map_iff in H. destruct H as ([c' n'] & E & Hin). destruct c. simpl in *.
    injection E as -> ->. exact Hin.
  - intros H. apply (Permutation_in _ registry_perm_published).
    apply (in_map (fun c => (cat_code c, cat_name c))) in H. exact H.
Qed.

Lemma cat_from_code_spec reg s :
  Permutation reg registry ->
  (forall c, cat_from_code reg s = Val c <-> In (cat_code c, cat_name c) published /\ cat_code c = s) /\
  ((forall c, In (cat_code c, cat_name c) published -> cat_code c <> s) ->
   cat_from_code reg s = Err ErrUnknownItemCat).
Proof.
  intros Hp. split.
  - intros c. unfold cat_from_code. split.
    + destruct (find _ reg) eqn:E; [|discriminate]. intros [= ->].
      apply find_some in E. destruct E as [E1 E2]. apply bytes_eqb_eq in E2.
      split; [|exact E2]. apply in_published. eapply Permutation_in; eauto.
    + intros [Hin <-]. apply in_published in Hin.
      destruct (find _ reg) as [d|] eqn:E.
      * apply find_some in E. destruct E as [E1 E2]. apply bytes_eqb_eq in E2.
        f_equal. apply registry_codes_inj; auto. eapply Permutation_in; eauto.
      * exfalso. apply find_none with (x := c) in E.
        -- rewrite bytes_eqb_refl in E. discriminate.
        -- eapply Permutation_in; [apply Permutation_sym; exact Hp|exact Hin].
  - intros H. unfold cat_from_code. destruct (find _ reg) as [d|] eqn:E; [|reflexivity].
    apply find_some in E. destruct E as [E1 E2]. apply bytes_eqb_eq in E2.
    exfalso. apply (H d); [|exact E2]. apply in_published. eapply Permutation_in; eauto.
Qed.

(** Lower-casing of ASCII texts does not depend on the Unicode tables. *)
Definition lower_byte (c : ascii) : ascii :=
  if is_upper_ascii (vb c) then bv (vb c + 32) else c.

Lemma lower_byte_vb U c : (vb c <? 128)%N = true -> rune_lower U (vb c) = vb (lower_byte c).
Proof.
  intros H. unfold rune_lower, lower_byte. rewrite H.
  destruct (is_upper_ascii (vb c)) eqn:E; [|reflexivity].
  rewrite vb_bv; [reflexivity|]. unfold is_upper_ascii, in_range in E. lia.
Qed.

Lemma lower_byte_ascii c : (vb c <? 128)%N = true -> (vb (lower_byte c) <? 128)%N = true.
Proof.
  intros H. unfold lower_byte. destruct (is_upper_ascii (vb c)) eqn:E; [|exact H].
  unfold is_upper_ascii, in_range in E. rewrite vb_bv; lia.
Qed.

Lemma to_lower_ascii U s : is_ascii s = true -> to_lower U s = map lower_byte s.
Proof.
  intros H. unfold to_lower, map_runes. rewrite ascii_decode by exact H.
  rewrite map_map.
  transitivity (utf8_encode (map vb (map lower_byte s))).
  - f_equal. rewrite map_map. apply map_ext_in. intros c Hin.
    apply lower_byte_vb. unfold is_ascii in H. rewrite forallb_forall in H. now apply H.
  - apply ascii_encode. unfold is_ascii in *. rewrite forallb_forall in *.
    intros c Hin. apply in_map_iff in Hin. destruct Hin as (d & <- & Hd).
    apply lower_byte_ascii. now apply H.
Qed.

Lemma registry_ascii c : In c registry -> is_ascii (cat_name c) = true.
Proof.
  intros H. assert (Hall : forallb (fun c => is_ascii (cat_name c)) registry = true) by reflexivity.
  rewrite forallb_forall in Hall. now apply Hall.
Qed.

Lemma registry_lower_nodup U : NoDup (map (fun c => to_lower U (cat_name c)) registry).
Proof.
  erewrite map_ext_in by (intros c Hc; apply to_lower_ascii, registry_ascii; exact Hc).
  apply nodupb_ok. reflexivity.
Qed.

Lemma nodup_map_inj {A B} (f : A -> B) l x y :
  NoDup (map f l) -> In x l -> In y l -> f x = f y -> x = y.
Proof.
  induction l as [|a l IH]; simpl; [tauto|].
  intros Hn Hx Hy E. inversion Hn as [|? ? Ha Hl]; subst.
  destruct Hx as [->|Hx], Hy as [->|Hy]; auto.
  - exfalso; apply Ha. rewrite E. now apply in_map.
  - exfalso; apply Ha. rewrite <- E. now apply in_map.
Qed.

Lemma cat_from_name_spec U reg s :
  Permutation reg registry ->
  (forall c, cat_from_name U reg s = Val c <->
     In (cat_code c, cat_name c) published /\ to_lower U s = to_lower U (cat_name c)) /\
  ((forall c, In (cat_code c, cat_name c) published -> to_lower U s <> to_lower U (cat_name c)) ->
   cat_from_name U reg s = Err ErrUnknownItemCat).
Proof.
  intros Hp. split.
  - intros c. unfold cat_from_name. split.
    + destruct (find _ reg) eqn:E; [|discriminate]. intros [= ->].
      apply find_some in E. destruct E as [E1 E2]. apply bytes_eqb_eq in E2.
      split; [|now symmetry]. apply in_published. eapply Permutation_in; eauto.
    + intros [Hin Es]. apply in_published in Hin.
      destruct (find _ reg) as [d|] eqn:E.
      * apply find_some in E. destruct E as [E1 E2]. apply bytes_eqb_eq in E2.
        f_equal. apply (nodup_map_inj (fun c => to_lower U (cat_name c)) registry);
          auto using registry_lower_nodup; [|congruence]. eapply Permutation_in; eauto.
      * exfalso. apply find_none with (x := c) in E.
        -- rewrite Es, bytes_eqb_refl in E. discriminate.
        -- eapply Permutation_in; [apply Permutation_sym; exact Hp|exact Hin].
  - intros H. unfold cat_from_name. destruct (find _ reg) as [d|] eqn:E; [|reflexivity].
    apply find_some in E. destruct E as [E1 E2]. apply bytes_eqb_eq in E2.
    exfalso. apply (H d); [|now symmetry]. apply in_published. eapply Permutation_in; eauto.
Qed.

Lemma same_letter_lower x y :
  same_letter x y -> ((vb x <? 128)%N = (vb y <? 128)%N) /\ lower_byte x = lower_byte y.
Proof.
  intros [->|[(n & H1 & H2)|(n & H1 & H2)]]; [auto| |].
  - do 26 (destruct n as [|n]; [injection H1 as <-; injection H2 as <-; split; reflexivity|]).
    destruct n; discriminate.
  - do 26 (destruct n as [|n]; [injection H1 as <-; injection H2 as <-; split; reflexivity|]).
    destruct n; discriminate.
Qed.

Lemma same_letters_lower U s t :
  is_ascii t = true -> same_letters s t -> to_lower U s = to_lower U t.
Proof.
  intros Ht H.
  assert (Hs : is_ascii s = true /\ map lower_byte s = map lower_byte t).
  { induction H as [|x y s t Hxy H IH]; [auto|].
    simpl in Ht. apply andb_true_iff in Ht. destruct Ht as [Hy Ht].
    apply same_letter_lower in Hxy. destruct Hxy as [E1 E2].
    destruct (IH Ht) as [Hs E]. simpl. rewrite E1, Hy, E2, E, Hs. auto. }
  rewrite !to_lower_ascii by tauto. tauto.
Qed.

Lemma cat_from_recased U reg s c :
  Permutation reg registry -> In (cat_code c, cat_name c) published ->
  same_letters s (cat_name c) -> cat_from_name U reg s = Val c.
Proof.
  intros Hp Hin Hs. apply cat_from_name_spec; [exact Hp|]. split; [exact Hin|].
  apply same_letters_lower; [|exact Hs]. apply registry_ascii. now apply in_published.
Qed.

(** ** Yes and no *)

Lemma rune2_ge c0 c1 : ok2 c0 c1 = true -> (128 <= rune2 c0 c1)%N.
Proof. unfold ok2, rune2, is_cont, in_range. lia. Qed.
Lemma rune3_ge c0 c1 c2 : ok3 c0 c1 c2 = true -> (128 <= rune3 c0 c1 c2)%N.
Proof.
  unfold ok3, rune3, is_cont, in_range. intros H.
  destruct (vb c0 =? 224)%N eqn:E0; destruct (vb c0 =? 237)%N eqn:E1; lia.
Qed.
Lemma rune4_ge c0 c1 c2 c3 : ok4 c0 c1 c2 c3 = true -> (128 <= rune4 c0 c1 c2 c3)%N.
Proof.
  unfold ok4, rune4, is_cont, in_range. intros H.
  destruct (vb c0 =? 240)%N eqn:E0; destruct (vb c0 =? 244)%N eqn:E1; lia.
Qed.

Lemma decode_high_head c0 s1 :
  (vb c0 <? 128)%N = false -> exists r rs, utf8_decode (c0 :: s1) = r :: rs /\ (128 <= r)%N.
Proof.
  intros H. rewrite utf8_decode_cons, H.
  assert (Herr : (128 <= rune_error)%N) by (unfold rune_error; lia).
  destruct s1 as [|c1 s2]; [eauto|].
  destruct (ok2 c0 c1) eqn:E2; [eauto using rune2_ge|].
  destruct s2 as [|c2 s3]; [eauto|].
  destruct (ok3 c0 c1 c2) eqn:E3; [eauto using rune3_ge|].
  destruct s3 as [|c3 s4]; [eauto|].
  destruct (ok4 c0 c1 c2 c3) eqn:E4; eauto using rune4_ge.
Qed.

Lemma decode_ascii_inv s l :
  Forall (fun r => (r < 128)%N) l -> utf8_decode s = l -> s = map bv l.
Proof.
  revert l; induction s as [|c s IH]; intros l Hl E.
  - simpl in E. subst. reflexivity.
  - destruct (vb c <? 128)%N eqn:Hc.
    + rewrite utf8_decode_cons, Hc in E. subst. inversion Hl as [|? ? Hr Hl']; subst.
      simpl. rewrite bv_vb. f_equal. now apply IH.
    + destruct (decode_high_head c s Hc) as (r & rs & E2 & Hr). rewrite E2 in E. subst.
      inversion Hl; subst. lia.
Qed.

Lemma lower_single U s n :
  unicode_ok U -> (n < 128)%N -> n <> 105%N -> n <> 107%N -> is_lower_ascii n = true ->
  (to_lower U s = [bv n] <-> s = [bv n] \/ s = [bv (n - 32)]).
Proof.
  intros HU Hn Hi Hk Hl. assert (Hl' := Hl). unfold is_lower_ascii, in_range in Hl'.
  split.
  - intros E. apply (f_equal utf8_decode) in E. rewrite to_lower_decode in E by exact HU.
    rewrite (ascii_decode [bv n]) in E by (simpl; rewrite vb_bv by lia; lia).
    simpl in E. rewrite vb_bv in E by lia.
    destruct (utf8_decode s) as [|r [|r2 rs]] eqn:Ed; try discriminate.
    injection E as E.
    assert (Hr : r = n \/ r = (n - 32)%N).
    { unfold rune_lower in E. destruct (r <? 128)%N eqn:H128.
      - destruct (is_upper_ascii r) eqn:Eu; [|auto]. right.
        unfold is_upper_ascii, in_range in Eu. lia.
      - exfalso. assert (128 <= r)%N by lia.
        destruct (ul_ascii U HU r H) as [E'|E']; lia. }
    assert (Hlt : (r < 128)%N) by lia.
    apply decode_ascii_inv in Ed; [|repeat constructor; exact Hlt]. simpl in Ed. subst s.
    destruct Hr as [->| ->]; auto.
  - intros [->| ->]; rewrite to_lower_ascii.
    + simpl. unfold lower_byte. rewrite vb_bv by lia.
      destruct (is_upper_ascii n) eqn:E; [|reflexivity]. unfold is_upper_ascii, in_range in E. lia.
    + simpl. rewrite vb_bv by lia. lia.
    + simpl. unfold lower_byte. rewrite vb_bv by lia.
      destruct (is_upper_ascii (n - 32)%N) eqn:E; [|unfold is_upper_ascii, in_range in E; lia].
      do 2 f_equal. lia.
    + simpl. rewrite vb_bv by lia. lia.
Qed.

Lemma lv_from_name_spec U s :
  unicode_ok U ->
  (lv_from_name U s = Val lv_yes <-> s = b "y" \/ s = b "Y") /\
  (lv_from_name U s = Val lv_no <-> s = b "n" \/ s = b "N") /\
  (s <> b "y" -> s <> b "Y" -> s <> b "n" -> s <> b "N" ->
   lv_from_name U s = Err ErrUnknownLogicVal).
Proof.
  intros HU.
  pose proof (lower_single U s 121 HU) as Hy. pose proof (lower_single U s 110 HU) as Hn.
  change [bv 121] with (b "y") in Hy. change [bv (121 - 32)] with (b "Y") in Hy.
  change [bv 110] with (b "n") in Hn. change [bv (110 - 32)] with (b "N") in Hn.
  specialize (Hy ltac:(lia) ltac:(lia) ltac:(lia) eq_refl).
  specialize (Hn ltac:(lia) ltac:(lia) ltac:(lia) eq_refl).
  unfold lv_from_name, lv_values, lv_no, lv_yes. cbn [find lv_name].
  rewrite !(to_lower_ascii U (b "n")), !(to_lower_ascii U (b "y")) by reflexivity.
  change (map lower_byte (b "n")) with (b "n"). change (map lower_byte (b "y")) with (b "y").
  destruct (bytes_eqb (b "n") (to_lower U s)) eqn:En.
  - apply bytes_eqb_eq in En. symmetry in En.
    assert (s = b "n" \/ s = b "N") as Hs by (now apply Hn).
    repeat split; intros; try discriminate; try tauto.
    destruct Hs as [->| ->]; destruct H as [H|H]; discriminate.
  - destruct (bytes_eqb (b "y") (to_lower U s)) eqn:Ey.
    + apply bytes_eqb_eq in Ey. symmetry in Ey.
      assert (s = b "y" \/ s = b "Y") as Hs by (now apply Hy).
      repeat split; intros; try discriminate; try tauto.
      destruct Hs as [->| ->]; destruct H as [H|H]; discriminate.
    + apply bytes_eqb_neq in En, Ey.
      repeat split; intros; try discriminate; try reflexivity; exfalso.
      * apply Ey. symmetry. now apply Hy.
      * apply En. symmetry. now apply Hn.
Qed.

(** ** Dates *)

Lemma digit_char_digit n : (0 <= n)%Z -> digit_char (Z.to_N n mod 10) = digit n.
Proof.
  intros Hn. unfold digit.
  replace (Z.to_N n mod 10)%N with (N.of_nat (Z.to_nat (n mod 10))) by lia.
  assert (H : Z.to_nat (n mod 10) < 10) by lia.
  destruct (Z.to_nat (n mod 10)) as [|k]; [reflexivity|].
  do 9 (destruct k as [|k]; [reflexivity|]). lia.
Qed.

Lemma pad_two n : (0 <= n < 100)%Z -> pad_int 2 n = two_digits n.
Proof.
  intros Hn. unfold pad_int, two_digits.
  destruct (Z.ltb_spec n 0); [lia|]. cbn [app].
  rewrite Z.abs_eq by lia.
  destruct (Z.ltb_spec n 10).
  - rewrite dec_of_N_small by lia. cbn [length Nat.sub repeat app].
    rewrite <- (digit_char_digit n) by lia. rewrite <- (digit_char_digit (n / 10)) by lia.
    replace (Z.to_N (n / 10) mod 10)%N with 0%N by lia.
    replace (Z.to_N n mod 10)%N with (Z.to_N n) by lia. reflexivity.
  - rewrite dec_of_N_step by lia. rewrite dec_of_N_small by lia.
    cbn [length Nat.sub repeat app].
    rewrite <- (digit_char_digit n) by lia. rewrite <- (digit_char_digit (n / 10)) by lia.
    replace (Z.to_N (n / 10) mod 10)%N with (Z.to_N n / 10)%N by lia. reflexivity.
Qed.

Lemma pad_four n : (0 <= n < 10000)%Z -> pad_int 4 n = four_digits n.
Proof.
  intros Hn. unfold pad_int, four_digits.
  destruct (Z.ltb_spec n 0); [lia|]. cbn [app].
  rewrite Z.abs_eq by lia.
  rewrite <- (digit_char_digit n), <- (digit_char_digit (n / 10)),
    <- (digit_char_digit (n / 100)), <- (digit_char_digit (n / 1000)) by lia.
  destruct (Z.ltb_spec n 10); [|destruct (Z.ltb_spec n 100); [|destruct (Z.ltb_spec n 1000)]].
  - rewrite dec_of_N_small by lia. cbn [length Nat.sub repeat app].
    replace (Z.to_N (n / 1000) mod 10)%N with 0%N by lia.
    replace (Z.to_N (n / 100) mod 10)%N with 0%N by lia.
    replace (Z.to_N (n / 10) mod 10)%N with 0%N by lia.
    replace (Z.to_N n mod 10)%N with (Z.to_N n) by lia. reflexivity.
  - rewrite dec_of_N_step by lia. rewrite dec_of_N_small by lia. cbn [length Nat.sub repeat app].
    replace (Z.to_N (n / 1000) mod 10)%N with 0%N by lia.
    replace (Z.to_N (n / 100) mod 10)%N with 0%N by lia.
    replace (Z.to_N (n / 10) mod 10)%N with (Z.to_N n / 10)%N by lia. reflexivity.
  - rewrite dec_of_N_step by lia. rewrite dec_of_N_step by lia. rewrite dec_of_N_small by lia.
    cbn [length Nat.sub repeat app].
    replace (Z.to_N (n / 1000) mod 10)%N with 0%N by lia.
    replace (Z.to_N (n / 100) mod 10)%N with (Z.to_N n / 10 / 10)%N by lia.
    replace (Z.to_N (n / 10) mod 10)%N with ((Z.to_N n / 10) mod 10)%N by lia. reflexivity.
  - rewrite dec_of_N_step by lia. rewrite dec_of_N_step by lia. rewrite dec_of_N_step by lia.
    rewrite dec_of_N_small by lia. cbn [length Nat.sub repeat app].
    replace (Z.to_N (n / 1000) mod 10)%N with (Z.to_N n / 10 / 10 / 10)%N by lia.
    replace (Z.to_N (n / 100) mod 10)%N with ((Z.to_N n / 10 / 10) mod 10)%N by lia.
    replace (Z.to_N (n / 10) mod 10)%N with ((Z.to_N n / 10) mod 10)%N by lia. reflexivity.
Qed.

Lemma fmt_date_text y m d :
  valid_date y m d -> (0 <= y < 10000)%Z -> fmt_date (y, m, d) = date_text y m d.
Proof.
  intros [Hm Hd] Hy. unfold fmt_date, date_text.
  assert (month_length y m <= 31)%Z.
  { unfold month_length. pose proof (leap_day_range y).
    destruct m as [|p|p]; try lia.
    do 5 (destruct p as [p|p|]; try lia). }
  rewrite pad_four, !pad_two by lia. reflexivity.
Qed.

Lemma format_date_spec tz u y m d :
  civil_range (u + tz u) -> valid_date y m d -> (0 <= y < 10000)%Z ->
  day_number y m d = ((u + tz u) / 86400)%Z ->
  format_date tz u = date_text y m d.
Proof.
  intros Hr Hv Hy Hd. unfold format_date.
  assert (E : civil (u + tz u) = (y, m, d)) by (apply civil_iff; auto).
  rewrite E. now apply fmt_date_text.
Qed.

(** ** Month and year *)

Lemma month_year_inj s t : parse_month_year s = parse_month_year t -> s = t.
Proof.
  unfold parse_month_year. intros H.
  destruct (Nat.ltb_spec 4 (length s)) as [Hs|Hs], (Nat.ltb_spec 4 (length t)) as [Ht|Ht].
  - assert (E1 : firstn 4 s = firstn 4 t).
    { apply (f_equal (firstn 4)) in H.
      rewrite !firstn_app_exact in H by (rewrite firstn_length; lia). exact H. }
    rewrite E1 in H. apply app_inv_head in H. apply app_inv_head in H.
    rewrite <- (firstn_skipn 4 s), <- (firstn_skipn 4 t), E1, H. reflexivity.
  - exfalso. apply (f_equal (@length ascii)) in H. rewrite !app_length, firstn_length, skipn_length in H.
    change (length (b "-")) with 1 in H. lia.
  - exfalso. apply (f_equal (@length ascii)) in H. rewrite !app_length, firstn_length, skipn_length in H.
    change (length (b "-")) with 1 in H. lia.
  - exact H.
Qed.

Lemma itoa_six z :
  (100000 <= z < 1000000)%Z -> itoa z = four_digits (z / 100) ++ two_digits z.
Proof.
  intros Hz. unfold itoa. destruct (Z.ltb_spec z 0); [lia|].
  do 5 (rewrite dec_of_N_step by lia). rewrite dec_of_N_small by lia.
  unfold four_digits, two_digits.
  repeat rewrite <- digit_char_digit by lia.
  cbn [app].
  replace (Z.to_N (z / 100 / 1000) mod 10)%N with (Z.to_N z / 10 / 10 / 10 / 10 / 10)%N by lia.
  replace (Z.to_N (z / 100 / 100) mod 10)%N with ((Z.to_N z / 10 / 10 / 10 / 10) mod 10)%N by lia.
  replace (Z.to_N (z / 100 / 10) mod 10)%N with ((Z.to_N z / 10 / 10 / 10) mod 10)%N by lia.
  replace (Z.to_N (z / 100) mod 10)%N with ((Z.to_N z / 10 / 10) mod 10)%N by lia.
  replace (Z.to_N (z / 10) mod 10)%N with ((Z.to_N z / 10) mod 10)%N by lia.
  reflexivity.
Qed.

Lemma month_year_text y m :
  (1000 <= y < 10000)%Z -> (1 <= m <= 12)%Z ->
  parse_month_year (four_digits y ++ two_digits m) = four_digits y ++ b "-" ++ two_digits m.
Proof. intros. reflexivity. Qed.

(** ** Addresses *)

Definition key_lt {V} (x y : bytes * V) : Prop := bytes_ltb (fst x) (fst y) = true.

Lemma insert_key_perm {V} k (v : V) m : Permutation (insert_key k v m) ((k, v) :: m).
Proof.
  induction m as [|[k' v'] m IH]; simpl; [reflexivity|].
  destruct (bytes_ltb k' k); [|reflexivity].
  rewrite IH. apply perm_swap.
Qed.

Lemma sort_map_perm {V} (m : gmap V) : Permutation (sort_map m) m.
Proof.
  induction m as [|[k v] m IH]; simpl; [reflexivity|].
  rewrite insert_key_perm. now constructor.
Qed.

Lemma insert_key_sorted {V} k (v : V) m :
  StronglySorted key_lt m -> ~ In k (map fst m) -> StronglySorted key_lt (insert_key k v m).
Proof.
  intros H. induction H as [|[k' v'] m Hm IH Hall]; simpl; intros Hk.
  - repeat constructor.
  - destruct (bytes_ltb k' k) eqn:E.
    + constructor; [apply IH; tauto|].
      apply Forall_forall. intros x Hx.
      apply (Permutation_in _ (insert_key_perm k v m)) in Hx. destruct Hx as [<-|Hx].
      * exact E.
      * rewrite Forall_forall in Hall. now apply Hall.
    + assert (Hlt : bytes_ltb k k' = true).
      { destruct (bytes_ltb k k') eqn:E2; [reflexivity|].
        exfalso. apply Hk. left. now apply bytes_ltb_total. }
      constructor; [constructor; assumption|].
      constructor; [exact Hlt|].
      rewrite Forall_forall in *. intros x Hx. unfold key_lt in *. simpl in *.
      eapply bytes_ltb_trans; [exact Hlt|]. now apply (Hall x).
Qed.

Lemma sort_map_sorted {V} (m : gmap V) :
  NoDup (map fst m) -> StronglySorted key_lt (sort_map m).
Proof.
  induction m as [|[k v] m IH]; simpl; intros H; [constructor|].
  inversion H as [|? ? Hk Hm]; subst. apply insert_key_sorted; [now apply IH|].
  intros Hin. apply Hk. eapply Permutation_in; [|exact Hin].
  apply Permutation_map, sort_map_perm.
Qed.

Definition address_text (kv : bytes * bytes) : bytes :=
  "010"%char :: b "  " ++ fst kv ++ b ": " ++
  map (fun c => if Ascii.eqb c "010"%char then " "%char else c) (trim_space (snd kv)).

Lemma replace_byte_map c d s :
  replace_byte c [d] s = map (fun x => if Ascii.eqb x c then d else x) s.
Proof. induction s as [|x s IH]; [reflexivity|]. unfold replace_byte in *. simpl. rewrite IH. destruct (Ascii.eqb x c); reflexivity. Qed.

Lemma parse_address_text (m : list (bytes * bytes)) :
  parse_address (map (fun kv => (fst kv, JStr (snd kv))) m) =
  Ok (concat (map address_text (sort_map m))).
Proof.
  unfold parse_address.
  assert (E : sort_map (map (fun kv => (fst kv, JStr (snd kv))) m) =
              map (fun kv : bytes * bytes => (fst kv, JStr (snd kv))) (sort_map m)).
  { induction m as [|[k v] m IH]; [reflexivity|]. simpl. rewrite IH.
    generalize (sort_map m). clear. induction g as [|[k' v'] g IH]; [reflexivity|].
    simpl. destruct (bytes_ltb k' k); [simpl; now rewrite IH|reflexivity]. }
  rewrite E.
  rewrite (rmap_pure _ (fun kv => match snd kv with JStr s => address_text (fst kv, s) | _ => [] end)).
  - cbn [rbind]. rewrite map_map. f_equal.
  - intros [k v] Hin. apply in_map_iff in Hin. destruct Hin as ([k' v'] & E' & _).
    simpl in E'. injection E' as <- <-. unfold address_line. cbn [snd as_str rbind fst].
    unfold address_text. cbn [fst snd]. f_equal.
    change (b " ") with [" "%char]. rewrite replace_byte_map. reflexivity.
Qed.

Lemma line_breaks_app x y : line_breaks (x ++ y) = line_breaks x + line_breaks y.
Proof. apply count_occ_app. Qed.

Lemma line_breaks_replaced s :
  line_breaks (map (fun c => if Ascii.eqb c "010"%char then " "%char else c) s) = 0.
Proof.
  unfold line_breaks. induction s as [|c s IH]; [reflexivity|]. simpl map.
  destruct (Ascii.eqb_spec c "010"%char).
  - rewrite count_occ_cons_neq by discriminate. exact IH.
  - rewrite count_occ_cons_neq by assumption. exact IH.
Qed.

Lemma line_breaks_address kv : line_breaks (fst kv) = 0 -> line_breaks (address_text kv) = 1.
Proof.
  intros H. unfold address_text.
  change ("010"%char :: b "  " ++ ?x) with (b (String "010" "  ") ++ x).
  rewrite !line_breaks_app, H, line_breaks_replaced. reflexivity.
Qed.

Lemma line_breaks_concat l :
  Forall (fun kv : bytes * bytes => line_breaks (fst kv) = 0) l ->
  line_breaks (concat (map address_text l)) = length l.
Proof.
  induction 1 as [|kv l Hkv H IH]; [reflexivity|]. cbn [map concat length]. rewrite line_breaks_app, IH.
  now rewrite line_breaks_address.
Qed.
