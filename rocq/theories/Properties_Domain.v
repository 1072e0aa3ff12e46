(** Properties of categories, answers, encodings, field values (C01-C05, C35,
    C38-C42).  Published categories, letters, dates: Spec_Domain.v, Spec_Civil.v;
    JSON texts: Spec_Json.v; base64: Spec_Base64.v; what a document shows:
    Spec_Item.v. *)
From Verif Require Import Base Utf8 Spec_Trim Spec_Numeral GoStrings GoStringsProof FieldsProof Base64 Spec_Base64 Base64Proof
  Float64 Float64Proof Json Spec_Json JsonProof Civil Spec_Civil CivilProof Domain Spec_Domain
  DomainProof Crypto CryptoProof Path Fs Repos ItemService Session SessionProof Spec_Item ItemProof.

(** ** C01: category lookup by code, whatever the current order of the list. *)
Theorem C01_category_by_code : forall reg, Permutation reg registry ->
  (forall code name, In (code, name) published -> cat_from_code reg code = Val (Cat code name)) /\
  (forall s, (exists c, cat_from_code reg s = Val c) <-> In s (map fst published)) /\
  (forall s, ~ In s (map fst published) -> cat_from_code reg s = Err ErrUnknownItemCat) /\
  NoDup (map fst published).
Proof.
  intros reg H. split; [|split; [|split]].
  - intros code name Hin. now apply (cat_from_code_spec reg code H).
  - intros s. rewrite in_map_iff. split.
    + intros (c & Hc). apply (cat_from_code_spec reg s H) in Hc. destruct Hc as [H1 H2].
      exists (cat_code c, cat_name c). auto.
    + intros ((code, name) & <- & Hin). exists (Cat code name).
      now apply (cat_from_code_spec reg code H).
  - intros s Hs. apply (cat_from_code_spec reg s H). intros c Hc E. apply Hs. subst s.
    apply in_map_iff. exists (cat_code c, cat_name c). auto.
  - apply nodupb_ok. reflexivity.
Qed.
Print Assumptions C01_category_by_code.

Example C01_example : cat_from_code (rev registry) (b "110") = Val (Cat (b "110") (b "Server")).
Proof. reflexivity. Qed.

(** ** C02: category lookup by name. *)
Theorem C02_category_by_name : forall U reg, Permutation reg registry ->
  (forall s c, cat_from_name U reg s = Val c <->
     In (cat_code c, cat_name c) published /\ to_lower U s = to_lower U (cat_name c)) /\
  (forall s, (forall code name, In (code, name) published -> to_lower U s <> to_lower U name) ->
     cat_from_name U reg s = Err ErrUnknownItemCat) /\
  (forall s code name, In (code, name) published -> same_letters s name ->
     cat_from_name U reg s = Val (Cat code name)).
Proof.
  intros U reg H. split; [|split].
  - intros s c. now apply (cat_from_name_spec U reg s H).
  - intros s Hs. apply (cat_from_name_spec U reg s H). intros c Hc. eauto.
  - intros s code name Hin Hs. now apply (cat_from_recased U reg s (Cat code name) H).
Qed.
Print Assumptions C02_category_by_name.

Example C02_example : same_letters (b "cREDIT cARD") (b "Credit Card").
Proof.
  unfold same_letters.
  repeat (apply Forall2_cons;
    [first [now left
           | right; left; solve [exists 0; auto | exists 3; auto | exists 4; auto | exists 8; auto
                                | exists 17; auto | exists 19; auto]
           | right; right; solve [exists 2; auto | exists 0; auto | exists 3; auto | exists 4; auto
                                 | exists 8; auto | exists 17; auto | exists 19; auto]
           | right; left; exists 2; auto ]|]).
  constructor.
Qed.

(** ** C03: listing the categories in any reachable state prints each category
    once in code order and changes no lookup; lookups mean the same in every
    reachable state. *)
Theorem C03_listing_keeps_lookups : forall C U tz s, reachable C U tz s ->
  (forall O D, exists s' l,
     step C U tz O D OpCategories s = Ok (s', RCats l) /\
     map (fun c => (cat_code c, cat_name c)) l = published /\
     (forall code, cat_from_code (st_reg s') code = cat_from_code (st_reg s) code) /\
     (forall name, cat_from_name U (st_reg s') name = cat_from_name U (st_reg s) name) /\
     (forall q O' D' r, is_query q ->
        (step C U tz O' D' q s' = Ok (s', r) <-> step C U tz O' D' q s = Ok (s, r)))) /\
  (forall code, cat_from_code (st_reg s) code = cat_from_code registry code) /\
  (forall name, cat_from_name U (st_reg s) name = cat_from_name U registry name).
Proof.
  intros C U tz s Hr. apply reachable_inv in Hr. destruct Hr as [Hreg _ _ _ _].
  split; [|split].
  - intros O D. eexists. eexists. split; [reflexivity|]. cbn [st_reg].
    assert (Hp : Permutation (sort_cats (st_reg s)) registry) by (rewrite sort_cats_perm; exact Hreg).
    split; [|split; [|split]].
    + apply sorted_perm_unique.
      * assert (Hs : StronglySorted code_lt (sort_cats (st_reg s))).
        { apply sort_cats_sorted. eapply Permutation_NoDup; [|exact registry_codes_nodup].
          apply Permutation_map. now symmetry. }
        clear -Hs. induction Hs as [|c l Hs IH Hc]; [constructor|]. simpl. constructor; [exact IH|].
        rewrite Forall_forall in *. intros x Hx. apply in_map_iff in Hx.
        destruct Hx as (d & <- & Hd). apply (Hc d Hd).
      * repeat (constructor; [|repeat constructor]). constructor.
      * rewrite <- registry_perm_published. now apply Permutation_map.
    + intros code. now apply cat_from_code_perm.
    + intros name. now apply cat_from_name_perm.
    + intros q O' D' r Hq. destruct q; simpl in *; try tauto; split; intros [= <-]; reflexivity.
  - intros code. now apply cat_from_code_perm.
  - intros name. now apply cat_from_name_perm.
Qed.
Print Assumptions C03_listing_keeps_lookups.

Example C03_example : reachable toy_crypto latin1 (fun _ => 0%Z) init.
Proof. exists [], []. split; [constructor|reflexivity]. Qed.

(** ** C04: yes/no answers. *)
Theorem C04_answers : forall U s, unicode_ok U ->
  (lv_from_name U s = Val lv_yes <-> s = b "y" \/ s = b "Y") /\
  (lv_from_name U s = Val lv_no <-> s = b "n" \/ s = b "N") /\
  (s <> b "y" -> s <> b "Y" -> s <> b "n" -> s <> b "N" ->
   lv_from_name U s = Err ErrUnknownLogicVal).
Proof. exact (fun U s H => lv_from_name_spec U s H). Qed.
Print Assumptions C04_answers.

Example C04_example : unicode_ok latin1 /\ lv_from_name latin1 (b "yes") = Err ErrUnknownLogicVal.
Proof. split; [exact latin1_ok|reflexivity]. Qed.

(** ** C05: base64. *)
Theorem C05_base64_round_trip : forall s t, wrapped t (b64_encode s) -> b64_decode t = (s, true).
Proof. exact (fun s t => b64_decode_wrapped t s). Qed.
Print Assumptions C05_base64_round_trip.

Example C05_example :
  wrapped (b "T2" ++ ["013"%char; "010"%char] ++ b "9k" ++ ["010"%char]) (b64_encode (b "Ood")).
Proof. vm_compute. repeat constructor. Qed.

(** ** C35: JSON. *)
Theorem C35_json_round_trip : forall v t, json_doc v t -> unmarshal t = (Some v, true).
Proof. exact unmarshal_doc. Qed.
Print Assumptions C35_json_round_trip.

Theorem C35_json_unambiguous : forall v v' t, json_doc v t -> json_doc v' t -> v = v'.
Proof. exact json_doc_functional. Qed.
Print Assumptions C35_json_unambiguous.

Example C35_example :
  json_doc (JObj [(b "a", JArr [JNull; JBool true]); (b "", JStr (b "x" ++ ["010"%char]))])
           (b "{""a"": [null , true], """":""x\n""} ").
Proof.
  exists 2, [], (b "{""a"": [null , true], """":""x\n""}"), [" "%char].
  split; [vm_compute; discriminate|]. split; [constructor|]. split; [|split].
  - change (b "{""a"": [null , true], """":""x\n""}") with
      ("{"%char :: (([] ++ quote :: b "a" ++ quote :: [] ++ ":"%char :: b " " ++ b "[null , true]" ++ [] ++
         ","%char :: (b " " ++ quote :: [] ++ quote :: [] ++ ":"%char :: [] ++
                      (quote :: (b "x\n") ++ [quote]) ++ [])) ++ ["}"%char])).
    change [(b "a", JArr [JNull; JBool true]); (b "", JStr (b "x" ++ ["010"%char]))] with
      (obj_of [(utf8_encode [97%N], JArr [JNull; JBool true]);
               (utf8_encode [], JStr (utf8_encode [120%N; 10%N]))]).
    apply jt_obj. apply mt_cons; try (constructor; fail); try (repeat constructor; fail).
    + change (b "a") with (enc_rune 97%N ++ []). constructor; try reflexivity; try discriminate. constructor.
    + change (b "[null , true]") with ("["%char :: ([] ++ b "null" ++ b " " ++ ","%char ::
          (b " " ++ b "true" ++ [])) ++ ["]"%char]).
      apply jt_arr. apply et_cons; try (repeat constructor; fail).
    + apply mt_one; try (repeat constructor; fail).
      constructor. change (b "x\n") with (enc_rune 120%N ++ "\"%char :: "n"%char :: []).
      constructor; try reflexivity; try discriminate.
      constructor; [|constructor]. simpl; auto 10.
  - repeat constructor.
  - reflexivity.
Qed.

(** ** C38: which fields and sections are shown, and in which order. *)
Theorem C38_field_parsing : forall U tz m ss,
  unicode_ok U -> shows_body U tz m ss -> parse_sections U tz (Some m) = Ok ss.
Proof. exact (fun U tz m ss H => shows_body_ok U tz m ss H). Qed.
Print Assumptions C38_field_parsing.

Example C38_example :
  let field k t v := JObj [(b "k", JStr k); (b "t", JStr t); (b "v", v)] in
  let blank := JObj [(b "k", JStr (b "string")); (b "t", JStr (b "pin"))] in
  shows_body latin1 (fun _ => 0%Z)
    [(b "sections", JArr
       [ JObj [(b "title", JStr (b "")) ];
         JObj [(b "title", JStr (b "card")); (b "fields", JArr
           [ field (b "string") (b "holder") (JStr (b "Bob")); blank;
             field (b "date") (b "since") (JStr (b "0"));
             field (b "monthYear") (b "until") (JNum (f64_of_Z 203005)) ])] ])]
    [MkSection (b "Card") [MkField (b "Holder") (b "Bob"); MkField (b "Since") (b "1970-01-01");
                           MkField (b "Until") (b "2030-05")]] /\
  shows_body latin1 (fun _ => 0%Z)
    [(b "fields", JArr [ JObj [(b "name", JStr (b "user")); (b "value", JStr (b "bob"))];
                         JObj [(b "name", JStr (b "remember")); (b "value", JStr (b ""))] ])]
    [MkSection [] [MkField (b "User") (b "bob")]].
Proof.
  cbn zeta. split.
  - eapply shows_body_sections; [reflexivity|].
    change [MkSection (b "Card") ?l] with ([] ++ [MkSection (b "Card") l] ++ []).
    apply shows_cons.
    { apply shows_section_none; [apply (shows_title_some latin1 _ []); reflexivity|].
      apply shows_fields_none. left. reflexivity. }
    apply shows_cons; [|constructor].
    apply shows_section_some; [apply (shows_title_some latin1 _ (b "card")); reflexivity| |left; discriminate].
    eapply shows_fields_some; [reflexivity|].
    change [MkField (b "Holder") (b "Bob"); ?x; ?y]
      with ([MkField (b "Holder") (b "Bob")] ++ [] ++ [x] ++ [y] ++ []).
    apply shows_cons.
    { apply (shows_field_some latin1 _ _ (b "string") (b "holder") (JStr (b "Bob"))); try reflexivity.
      apply shows_text. vm_compute. intuition discriminate. }
    apply shows_cons; [apply shows_field_none; left; reflexivity|].
    apply shows_cons.
    { apply (shows_field_some latin1 _ _ (b "date") (b "since") (JStr (b "0"))); try reflexivity.
      apply (shows_date latin1 (fun _ => 0%Z) (b "date") (b "0") 0 1970 1 1); try reflexivity.
      - apply parse_int_numeral. vm_compute. intuition congruence.
      - unfold min_int64, max_int64. lia.
      - vm_compute. intuition discriminate.
      - split; [|reflexivity]. unfold valid_date. vm_compute. intuition discriminate.
      - lia. }
    apply shows_cons; [|constructor].
    apply (shows_field_some latin1 _ _ (b "monthYear") (b "until") (JNum (f64_of_Z 203005))); try reflexivity.
    apply (shows_month latin1 _ (b "monthYear") 2030 5); [reflexivity|lia|lia].
  - eapply (shows_body_form latin1 _ _ _ [MkField (b "User") (b "bob")]); [left; reflexivity|reflexivity|].
    change [MkField (b "User") (b "bob")] with ([MkField (b "User") (b "bob")] ++ [] ++ []).
    apply shows_cons.
    { apply (shows_form_some latin1 _ (b "user") (b "bob")); try reflexivity; discriminate. }
    apply shows_cons; [|constructor].
    apply (shows_form_empty latin1 _ (b "remember") (b "")); auto; reflexivity.
Qed.

(** ** C39: dates.  The property is proved for times stored as text and for
    numbers below one million; it is false for every larger number. *)
Definition date_field (U : unicode) (m : gmap json) (t : bytes) : Prop :=
  (exists k, has_str (b "k") m k /\ to_lower U k = b "date") /\ has_str (b "t") m t.

Lemma section_field_value U tz m k t v s :
  has_str (b "k") m k -> has_str (b "t") m t -> mget (b "v") m = Some v -> v <> JNull ->
  field_value U tz k v = Ok s ->
  parse_item_field U tz true m = Ok (Some (MkField (title U t) s)).
Proof.
  intros Hk Ht Hv Hn Hf. unfold parse_item_field, parse_section_field.
  rewrite (mget_jget _ _ _ Hv), (mget_jget _ _ _ Hk), (mget_jget _ _ _ Ht).
  replace (jnil v) with false by (destruct v; congruence || reflexivity).
  cbn [as_str rbind]. unfold field_value in Hf. cbn zeta in Hf.
  destruct (dt_from_name U k) as [[| |]|e]; cbn [rbind] in Hf |- *;
    first [rewrite Hf; reflexivity | idtac].
Qed.

Theorem C39_dates_partial : forall U tz m t s u y mo d,
  date_field U m t ->
  (mget (b "v") m = Some (JStr s) /\ numeral s u /\ (min_int64 <= u <= max_int64)%Z \/
   mget (b "v") m = Some (JNum (f64_of_Z u)) /\ (-1000000 < u < 1000000)%Z) ->
  civil_range (u + tz u) -> local_date tz u y mo d -> (0 <= y <= 9999)%Z ->
  parse_item_field U tz true m = Ok (Some (MkField (title U t) (date_text y mo d))).
Proof.
  intros U tz m t s u y mo d [(k & Hk & Hkd) Ht] Hv Hr Hl Hy.
  destruct Hv as [[Hv [Hs Hu]]|[Hv Hu]];
    (eapply section_field_value; [exact Hk|exact Ht|exact Hv|discriminate|]);
    apply shows_value_ok.
  - now apply (shows_date _ _ _ _ u).
  - now apply shows_date_number.
Qed.
Print Assumptions C39_dates_partial.

(** Whatever the stored time is, a number from one million on is shown as the
    date of the Unix time 0. *)
Theorem C39_dates_refuted : forall U tz m t u,
  date_field U m t -> mget (b "v") m = Some (JNum (f64_of_Z u)) ->
  (1000000 <= u < 9007199254740992)%Z ->
  parse_item_field U tz true m = Ok (Some (MkField (title U t) (format_date tz 0))).
Proof.
  intros U tz m t u [(k & Hk & Hkd) Ht] Hv Hu.
  eapply section_field_value; [exact Hk|exact Ht|exact Hv|discriminate|].
  now apply date_number_epoch.
Qed.
Print Assumptions C39_dates_refuted.

Example C39_example :
  let m := [(b "k", JStr (b "date")); (b "t", JStr (b "born")); (b "v", JStr (b "+0951827696"))] in
  date_field latin1 m (b "born") /\ numeral (b "+0951827696") 951827696 /\ civil_range 951827696 /\
  local_date (fun _ => 0%Z) 951827696 2000 2 29 /\
  parse_item_field latin1 (fun _ => 0%Z) true m = Ok (Some (MkField (b "Born") (b "2000-02-29"))).
Proof.
  cbn zeta. split; [|split; [|split; [|split]]].
  - split; [exists (b "date"); split; reflexivity|reflexivity].
  - apply parse_int_numeral. vm_compute. intuition congruence.
  - unfold civil_range, abs_epoch_days. lia.
  - split; [|vm_compute; reflexivity]. unfold valid_date, month_length, leap_day. vm_compute. intuition congruence.
  - vm_compute. reflexivity.
Qed.

(** The same day stored as a number is shown wrongly. *)
Example C39_refuted_example :
  parse_item_field latin1 (fun _ => 0%Z) true
    [(b "k", JStr (b "date")); (b "t", JStr (b "born")); (b "v", JNum (f64_of_Z 951827696))]
  = Ok (Some (MkField (b "Born") (b "1970-01-01"))).
Proof. vm_compute. reflexivity. Qed.

(** ** C40: month and year, stored as the number or the text YYYYMM. *)
Theorem C40_month_year : forall U tz m k t y mo,
  has_str (b "k") m k -> to_lower U k = b "monthyear" -> has_str (b "t") m t ->
  (1000 <= y <= 9999)%Z -> (1 <= mo <= 12)%Z ->
  mget (b "v") m = Some (JNum (f64_of_Z (100 * y + mo))) \/
  mget (b "v") m = Some (JStr (four_digits y ++ two_digits mo)) ->
  parse_item_field U tz true m =
  Ok (Some (MkField (title U t) (four_digits y ++ b "-" ++ two_digits mo))).
Proof.
  intros U tz m k t y mo Hk Hkm Ht Hy Hmo [Hv|Hv];
    (eapply section_field_value; [exact Hk|exact Ht|exact Hv|discriminate|]);
    apply shows_value_ok; [now apply shows_month|now apply shows_month_text].
Qed.
Print Assumptions C40_month_year.

(** The stored text can be recovered from the shown one. *)
Theorem C40_month_year_recoverable : forall s t,
  parse_month_year s = parse_month_year t -> s = t.
Proof. exact month_year_inj. Qed.
Print Assumptions C40_month_year_recoverable.

Example C40_example :
  parse_item_field latin1 (fun _ => 0%Z) true
    [(b "k", JStr (b "monthYear")); (b "t", JStr (b "expiry")); (b "v", JNum (f64_of_Z 202411))]
  = Ok (Some (MkField (b "Expiry") (b "2024-11"))).
Proof. vm_compute. reflexivity. Qed.

(** ** C41: addresses: every part once, in key order, one line each. *)
Theorem C41_address : forall U tz m k t parts,
  has_str (b "k") m k -> to_lower U k = b "address" -> has_str (b "t") m t ->
  NoDup (map fst parts) ->
  mget (b "v") m = Some (JObj (map (fun kv => (fst kv, JStr (snd kv))) parts)) ->
  exists order lines text,
    parse_item_field U tz true m = Ok (Some (MkField (title U t) text)) /\
    Permutation order parts /\
    StronglySorted (fun x y => bytes_ltb (fst x) (fst y) = true) order /\
    Forall2 address_line order lines /\ text = concat lines /\
    (Forall (fun kv => line_breaks (fst kv) = 0) parts -> line_breaks text = length parts).
Proof.
  intros U tz m k t parts Hk Hka Ht Hn Hv.
  exists (sort_map parts).
  exists (map address_text (sort_map parts)).
  exists (concat (map address_text (sort_map parts))).
  assert (Hlines : Forall2 address_line (sort_map parts) (map address_text (sort_map parts))).
  { induction (sort_map parts) as [|kv l IH]; [constructor|]. cbn [map]. constructor; [|exact IH].
    exists (map (fun c => if Ascii.eqb c "010"%char then " "%char else c) (trim_space (snd kv))).
    split; [|reflexivity]. exists (trim_space (snd kv)). split; [apply FieldsProof.trim_space_trimmed|reflexivity]. }
  split; [|split; [|split; [|split; [exact Hlines|split]]]].
  - eapply section_field_value; [exact Hk|exact Ht|exact Hv|discriminate|].
    apply shows_value_ok. apply shows_address with (order := sort_map parts); auto.
    + apply sort_map_perm.
    + now apply (sort_map_sorted parts).
  - apply sort_map_perm.
  - now apply (sort_map_sorted parts).
  - reflexivity.
  - intros Hl.
    rewrite line_breaks_concat.
    + apply Permutation_length, sort_map_perm.
    + eapply Permutation_Forall; [symmetry; apply sort_map_perm|exact Hl].
Qed.
Print Assumptions C41_address.

Example C41_example :
  parse_item_field latin1 (fun _ => 0%Z) true
    [(b "k", JStr (b "address")); (b "t", JStr (b "home"));
     (b "v", JObj [(b "street", JStr (b "Main" ++ ["010"%char] ++ b "1 ")); (b "city", JStr (b "Oslo"))])]
  = Ok (Some (MkField (b "Home") (b (String "010" "  city: Oslo") ++ b (String "010" "  street: Main 1")))).
Proof. vm_compute. reflexivity. Qed.

(** ** C42: the double capitalisation of section titles. *)
Theorem C42_title_once : forall U s, unicode_ok U -> title U (title U s) = title U s.
Proof. exact (fun U s H => title_idem U s H). Qed.
Print Assumptions C42_title_once.

(** So a section is shown under its title capitalised once. *)
Theorem C42_section_title : forall U tz m t sec,
  unicode_ok U -> has_str (b "title") m t ->
  parse_item_section U tz m = Ok (Some sec) -> sec_title sec = title U t.
Proof.
  intros U tz m t sec HU Ht H. unfold parse_item_section in H.
  rewrite (mget_jget _ _ _ Ht) in H. cbn [jnil as_str rbind] in H. cbn zeta in H.
  apply rbind_ok in H. destruct H as (fl & _ & H).
  destruct (is_nil fl && is_nil (title U t)); [discriminate|].
  injection H as <-. cbn [sec_title]. now apply title_idem.
Qed.
Print Assumptions C42_section_title.

Example C42_example :
  parse_item_section latin1 (fun _ => 0%Z) [(b "title", JStr (b "web-site dEtails"))]
  = Ok (Some (MkSection (b "Web-Site DEtails") [])).
Proof. vm_compute. reflexivity. Qed.
