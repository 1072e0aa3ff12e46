(** Proofs about the parsing part of ItemService.v. *)
From Verif Require Import Base Utf8 Spec_Trim Spec_Numeral GoStrings GoStringsProof FieldsProof Base64 Float64 Float64Proof Json JsonProof
  Civil Spec_Civil CivilProof Crypto Path Fs Domain Spec_Domain DomainProof KeyService Repos
  ItemService Spec_Item.
Open Scope res_scope.

Lemma absent_jget k m : absent k m <-> jget k (Some m) = JNull.
Proof.
  unfold absent, jget. destruct (mget k m) as [v|]; [|tauto]. split.
  - intros [H|H]; congruence.
  - intros ->. auto.
Qed.

Lemma mget_jget k m v : mget k m = Some v -> jget k (Some m) = v.
Proof. unfold jget. now intros ->. Qed.

Section Parse.
Variable U : unicode.
Variable tz : Z -> Z.

Lemma dt_lower : forall d, to_lower U (dt_name d) =
  match d with DAddress => b "address" | DDate => b "date" | DMonthYear => b "monthyear" end.
Proof. intros []; rewrite to_lower_ascii by reflexivity; reflexivity. Qed.

Lemma dt_from_name_cases k :
  dt_from_name U k =
  if bytes_eqb (b "address") (to_lower U k) then Val DAddress
  else if bytes_eqb (b "date") (to_lower U k) then Val DDate
  else if bytes_eqb (b "monthyear") (to_lower U k) then Val DMonthYear
  else Err ErrUnknownDataType.
Proof.
  unfold dt_from_name, dt_values. cbn [find]. rewrite !dt_lower.
  destruct (bytes_eqb (b "address") _); [reflexivity|].
  destruct (bytes_eqb (b "date") _); [reflexivity|].
  destruct (bytes_eqb (b "monthyear") _); reflexivity.
Qed.

Lemma sorted_perm_unique {V} (l l' : list (bytes * V)) :
  StronglySorted key_lt l -> StronglySorted key_lt l' -> Permutation l l' -> l = l'.
Proof.
  intros H. revert l'. induction H as [|x l Hl IH Hx]; intros l' Hl' Hp.
  - apply Permutation_nil in Hp. now subst.
  - destruct l' as [|y l']; [apply Permutation_sym, Permutation_nil in Hp; discriminate|].
    assert (x = y) as ->.
    { inversion Hl' as [|? ? Hl'' Hy]; subst.
      assert (Hin : In x (y :: l')) by (eapply Permutation_in; [exact Hp|now left]).
      assert (Hin' : In y (x :: l))
        by (eapply Permutation_in; [apply Permutation_sym; exact Hp|now left]).
      destruct Hin as [E|Hin]; [now symmetry|]. destruct Hin' as [E|Hin']; [exact E|].
      rewrite Forall_forall in Hx, Hy. specialize (Hx _ Hin'). specialize (Hy _ Hin).
      unfold key_lt in *. pose proof (bytes_ltb_trans _ _ _ Hx Hy) as Hc.
      rewrite bytes_ltb_irrefl in Hc. discriminate. }
    f_equal. apply IH.
    + now inversion Hl'.
    + eapply Permutation_cons_inv; exact Hp.
Qed.

(** Values *)
Definition field_value (k : bytes) (v : json) : res bytes :=
  match dt_from_name U k with
  | Err _ => as_str v
  | Val DAddress => m <- as_obj v ;; parse_value tz DAddress [] m
  | Val d => parse_value tz d (jsprint v) []
  end.

Lemma date_value k v u y m d :
  to_lower U k = b "date" -> fst (parse_int (jsprint v)) = u ->
  civil_range (u + tz u) -> local_date tz u y m d -> (0 <= y <= 9999)%Z ->
  field_value k v = Ok (date_text y m d).
Proof.
  intros Hk Hu Hr [Hv Hd] Hy. unfold field_value. rewrite dt_from_name_cases, Hk.
  cbn [bytes_eqb b list_ascii_of_string Ascii.eqb Bool.eqb andb].
  unfold parse_value, parse_date. rewrite Hu. f_equal. apply format_date_spec; auto. lia.
Qed.

Lemma month_value k v y m :
  to_lower U k = b "monthyear" -> jsprint v = four_digits y ++ two_digits m ->
  field_value k v = Ok (four_digits y ++ b "-" ++ two_digits m).
Proof.
  intros Hk Hv. unfold field_value. rewrite dt_from_name_cases, Hk.
  cbn [bytes_eqb b list_ascii_of_string Ascii.eqb Bool.eqb andb].
  unfold parse_value. rewrite Hv. reflexivity.
Qed.

Lemma four_two y m :
  (1000 <= y <= 9999)%Z -> (1 <= m <= 12)%Z ->
  itoa (100 * y + m) = four_digits y ++ two_digits m.
Proof.
  intros Hy Hm. rewrite itoa_six by lia. f_equal.
  - f_equal. lia.
  - unfold two_digits, digit.
    replace (((100 * y + m) / 10) mod 10)%Z with ((m / 10) mod 10)%Z by lia.
    replace ((100 * y + m) mod 10)%Z with (m mod 10)%Z by lia. reflexivity.
Qed.

Lemma shows_value_ok k v s : shows_value U tz k v s -> field_value k v = Ok s.
Proof.
  intros H. destruct H.
  - unfold field_value. rewrite dt_from_name_cases.
    destruct (bytes_eqb (b "address") (to_lower U k)) eqn:E1.
    { apply bytes_eqb_eq in E1. exfalso; apply H. rewrite <- E1. simpl; auto. }
    destruct (bytes_eqb (b "date") (to_lower U k)) eqn:E2.
    { apply bytes_eqb_eq in E2. exfalso; apply H. rewrite <- E2. simpl; auto. }
    destruct (bytes_eqb (b "monthyear") (to_lower U k)) eqn:E3.
    { apply bytes_eqb_eq in E3. exfalso; apply H. rewrite <- E3. simpl; auto. }
    reflexivity.
  - apply date_value with (u := u); try assumption. cbn [jsprint]. erewrite (proj2 (parse_int_numeral _ _)); [reflexivity|split; eassumption].
  - apply date_value with (u := u); try assumption. cbn [jsprint]. rewrite sprint_small_int by lia.
    rewrite parse_int_itoa; [reflexivity|]. unfold min_int64, max_int64. lia.
  - apply month_value; [assumption|]. cbn [jsprint]. rewrite sprint_small_int by lia.
    now apply four_two.
  - apply month_value; [assumption|]. reflexivity.
  - unfold field_value. rewrite dt_from_name_cases, H.
    cbn [bytes_eqb b list_ascii_of_string Ascii.eqb Bool.eqb andb as_obj rbind].
    cbn [parse_value]. rewrite parse_address_text. f_equal.
    replace (sort_map parts) with order.
    + f_equal. symmetry. clear -H3. induction H3 as [|kv l order lines (t & (u & Hu & ->) & ->) _ IH]; [reflexivity|].
      cbn [map]. rewrite <- IH. f_equal. apply FieldsProof.trimmed_eq in Hu. subst u. reflexivity.
    + apply sorted_perm_unique.
      * exact H2.
      * now apply sort_map_sorted.
      * rewrite H1. symmetry. apply sort_map_perm.
Qed.

(** Fields *)
Lemma as_obj_parse j fs ys (P : gmap json -> res (option item_field)) :
  j = JObj fs -> P fs = Ok ys -> (m <- as_obj j ;; P m) = Ok ys.
Proof. intros -> H. exact H. Qed.

Definition opt_list {A} (o : option A) : list A := match o with Some x => [x] | None => [] end.

Lemma somes_cons {A} (o : option A) l : somes (o :: l) = opt_list o ++ somes l.
Proof. destruct o; reflexivity. Qed.

Lemma shows_field_ok j ys :
  shows_field U tz j ys ->
  exists o, (m <- as_obj j ;; parse_item_field U tz true m) = Ok o /\ opt_list o = ys.
Proof.
  intros H. destruct H as [m Hv|m k t v s Hk Ht Hv Hs].
  - exists None. split; [|reflexivity]. cbn [as_obj rbind parse_item_field]. unfold parse_section_field.
    apply absent_jget in Hv. now rewrite Hv.
  - exists (Some (MkField (title U t) s)). split; [|reflexivity].
    cbn [as_obj rbind parse_item_field]. unfold parse_section_field.
    rewrite (mget_jget _ _ _ Hk), (mget_jget _ _ _ Ht), (mget_jget _ _ _ Hv).
    assert (jnil v = false) as ->.
    { destruct Hs; reflexivity. }
    cbn [as_str rbind]. apply shows_value_ok in Hs. unfold field_value in Hs. rewrite Hs. reflexivity.
Qed.

Lemma is_nil_false {A} (l : list A) : l <> [] -> is_nil l = false.
Proof. destruct l; [congruence|reflexivity]. Qed.

Lemma shows_form_ok j ys :
  shows_form U j ys ->
  exists o, (m <- as_obj j ;; parse_item_field U tz false m) = Ok o /\ opt_list o = ys.
Proof.
  intros H. destruct H as [m H|m n v Hn Hv H|m n v Hn Hv Hn0 Hv0];
    cbn [as_obj rbind parse_item_field]; unfold parse_form_field.
  - exists None. split; [|reflexivity].
    destruct H as [H|H]; apply absent_jget in H; rewrite H; cbn [jnil negb andb];
      [rewrite andb_false_r|]; reflexivity.
  - rewrite (mget_jget _ _ _ Hn), (mget_jget _ _ _ Hv). cbn [jnil negb andb as_str rbind].
    exists None. split; [|reflexivity].
    destruct H as [-> | ->]; cbn [is_nil negb andb]; [rewrite andb_false_r|]; reflexivity.
  - rewrite (mget_jget _ _ _ Hn), (mget_jget _ _ _ Hv). cbn [jnil negb andb as_str rbind].
    exists (Some (MkField (title U n) v)). rewrite !is_nil_false by assumption. split; reflexivity.
Qed.

Lemma shows_list_ok {A B} (R : A -> list B -> Prop) (f : A -> res (option B)) :
  (forall x ys, R x ys -> exists o, f x = Ok o /\ opt_list o = ys) ->
  forall l zs, shows_list R l zs -> exists os, rmap f l = Ok os /\ somes os = zs.
Proof.
  intros Hf l zs H. induction H as [|x l ys zs Hx Hl IH].
  - exists []. auto.
  - destruct (Hf _ _ Hx) as (o & E & <-). destruct IH as (os & E2 & <-).
    exists (o :: os). simpl. rewrite E, E2. split; [reflexivity|]. apply somes_cons.
Qed.

Lemma shows_fields_ok m fs :
  shows_fields U tz m fs ->
  (let fj := jget (b "fields") (Some m) in
   if jnil fj then Ok [] else l <- as_arr fj ;; parse_fields U tz true l) = Ok fs.
Proof.
  intros H. destruct H as [m H|m l fs Hl H]; cbn zeta.
  - apply absent_jget in H. rewrite H. reflexivity.
  - rewrite (mget_jget _ _ _ Hl). cbn [jnil as_arr rbind]. unfold parse_fields.
    destruct (shows_list_ok _ _ shows_field_ok _ _ H) as (os & E & <-).
    rewrite E. reflexivity.
Qed.

Lemma shows_section_ok j ys :
  unicode_ok U ->
  shows_section U tz j ys ->
  exists o, (m <- as_obj j ;; parse_item_section U tz m) = Ok o /\ opt_list o = ys.
Proof.
  intros HU H.
  assert (Ht : forall m t, shows_title U m t ->
    (let tj := jget (b "title") (Some m) in
     if jnil tj then Ok [] else s <- as_str tj ;; Ok (title U s)) = Ok t /\ title U t = t).
  { intros m t Hx. destruct Hx as [m Hx|m t Hx].
    - apply absent_jget in Hx. cbn zeta. rewrite Hx. split; [reflexivity|]. now apply title_nil.
    - cbn zeta. rewrite (mget_jget _ _ _ Hx). split; [reflexivity|]. now apply title_idem. }
  destruct H as [m H1 H2|m t fs H1 H2 H3]; cbn [as_obj rbind]; unfold parse_item_section; cbn zeta;
    pose proof (shows_fields_ok _ _ H2) as Ef; cbn zeta in Ef.
  - rewrite Ef. cbn [rbind]. destruct (Ht _ _ H1) as [E _].
    cbn zeta in E. rewrite E. exists None. split; reflexivity.
  - rewrite Ef. cbn [rbind]. destruct (Ht _ _ H1) as [E E2].
    cbn zeta in E. rewrite E. cbn [rbind]. rewrite E2. exists (Some (MkSection t fs)).
    split; [|reflexivity]. destruct H3 as [H3|H3]; apply is_nil_false in H3; rewrite H3;
      [rewrite andb_false_r|]; reflexivity.
Qed.

Lemma shows_body_ok m ss :
  unicode_ok U -> shows_body U tz m ss -> parse_sections U tz (Some m) = Ok ss.
Proof.
  intros HU H. destruct H as [m l ss Hl H|m l fs Hs Hl H|m Hs Hf]; unfold parse_sections; cbn zeta.
  - rewrite (mget_jget _ _ _ Hl). cbn [jnil as_arr rbind].
    destruct (shows_list_ok _ _ (fun j ys => shows_section_ok j ys HU) _ _ H) as (os & E & <-).
    rewrite E. reflexivity.
  - apply absent_jget in Hs. rewrite Hs, (mget_jget _ _ _ Hl). cbn [jnil as_arr rbind].
    unfold parse_fields.
    destruct (shows_list_ok _ _ shows_form_ok _ _ H) as (os & E & E2).
    rewrite E. cbn [rbind]. rewrite E2. destruct fs; reflexivity.
  - apply absent_jget in Hs, Hf. rewrite Hs, Hf. reflexivity.
Qed.

Lemma text_of_ok k m s : text_of k m s -> opt_string (jget k (Some m)) = Ok s.
Proof.
  intros [[H ->]|H].
  - apply absent_jget in H. now rewrite H.
  - now rewrite (mget_jget _ _ _ H).
Qed.

(** The functional side: the specification relates at most one result. *)
Lemma shows_body_functional m ss ss' :
  unicode_ok U -> shows_body U tz m ss -> shows_body U tz m ss' -> ss = ss'.
Proof. intros HU H H'. apply shows_body_ok in H, H'; auto. congruence. Qed.

(** What is lost (C37): the form fields do not matter when sections are there, and
    no other key matters. *)
Lemma parse_sections_keys d d' :
  jget (b "sections") d = jget (b "sections") d' ->
  (jnil (jget (b "sections") d) = true -> jget (b "fields") d = jget (b "fields") d') ->
  parse_sections U tz d = parse_sections U tz d'.
Proof.
  intros E1 E2. unfold parse_sections. cbn zeta. rewrite <- E1.
  destruct (jnil (jget (b "sections") d)); [|reflexivity]. rewrite <- E2 by reflexivity. reflexivity.
Qed.

(** Date numbers from a million on are shown as the epoch (C39). *)
Lemma date_number_epoch k u :
  to_lower U k = b "date" -> (1000000 <= u < 9007199254740992)%Z ->
  field_value k (JNum (f64_of_Z u)) = Ok (format_date tz 0).
Proof.
  intros Hk Hu. unfold field_value. rewrite dt_from_name_cases, Hk.
  cbn [bytes_eqb b list_ascii_of_string Ascii.eqb Bool.eqb andb jsprint].
  unfold parse_value, parse_date. rewrite parse_int_sprint_large; [reflexivity|].
  rewrite f64_of_Z_num, f64_of_Z_den. lia.
Qed.

End Parse.
