(** The first word of a text: strings.Fields and strings.TrimSpace against a specification. *)
From Verif Require Import Base Utf8 Spec_Trim GoStrings GoStringsProof.

(** ** Blanks *)

Lemma white_space r : white r <-> is_space r = true.
Proof.
  unfold white, white_points. cbn [In]. unfold is_space, in_range. split; [intros H|intros H].
  - repeat (destruct H as [<-|H]; [reflexivity|]). destruct H.
  - lia.
Qed.

Lemma white_list rs : Forall white rs <-> Forall (fun r => is_space r = true) rs.
Proof. rewrite !Forall_forall. split; intros H r Hr; apply white_space; auto. Qed.

Lemma bv_vb_eq c n : vb c = n -> c = bv n.
Proof. intros <-. symmetry. apply bv_vb. Qed.

Lemma is_space_cases r : is_space r = true ->
  (r < 128 \/ r = 133 \/ r = 160 \/ r = 5760 \/ (8192 <= r <= 8202) \/ r = 8232 \/ r = 8233 \/ r = 8239 \/ r = 8287 \/ r = 12288)%N.
Proof. unfold is_space, in_range. lia. Qed.

Lemma space_valid r : is_space r = true -> valid_rune r = true.
Proof. intros H. apply is_space_cases in H. unfold valid_rune, in_range. lia. Qed.

Lemma space_width_blank r x : is_space r = true -> space_width (enc_rune r ++ x) = length (enc_rune r).
Proof.
  intros Hs. unfold enc_rune. rewrite (space_valid r Hs). unfold enc_valid.
  assert (Hc := is_space_cases r Hs).
  destruct (N.ltb_spec r 128); [|destruct (N.ltb_spec r 2048); [|destruct (N.ltb_spec r 65536); [|lia]]];
    cbn [app space_width length]; rewrite !vb_bv by lia.
  - rewrite Hs. replace (r <? 128)%N with true by lia. reflexivity.
  - replace (_ <? 128)%N with false by lia. rewrite andb_false_r.
    replace (rune2 _ _) with r by (unfold rune2; rewrite !vb_bv by lia; lia).
    replace (ok2 _ _) with true by (unfold ok2, is_cont, in_range; rewrite !vb_bv by lia; lia).
    now rewrite Hs.
  - replace (_ <? 128)%N with false by lia. rewrite andb_false_r.
    replace (ok2 _ _) with false by (unfold ok2, in_range; rewrite !vb_bv by lia; lia). cbn [andb].
    replace (rune3 _ _ _) with r by (unfold rune3; rewrite !vb_bv by lia; lia). rewrite Hs.
    replace (ok3 _ _ _) with true; [reflexivity|]. unfold ok3, is_cont, in_range. rewrite !vb_bv by lia.
    destruct (_ =? 224)%N eqn:E1; [lia|]. destruct (_ =? 237)%N eqn:E2; lia.
Qed.

Lemma enc2 c0 c1 : ok2 c0 c1 = true -> enc_rune (rune2 c0 c1) = [c0; c1].
Proof.
  intros H. unfold enc_rune. rewrite (ok2_valid _ _ H). unfold ok2, is_cont, in_range, rune2, enc_valid in *.
  replace (_ <? 128)%N with false by lia. replace (_ <? 2048)%N with true by lia.
  f_equal; [|f_equal]; symmetry; apply bv_vb_eq; lia.
Qed.

Lemma enc3 c0 c1 c2 : ok3 c0 c1 c2 = true -> enc_rune (rune3 c0 c1 c2) = [c0; c1; c2].
Proof.
  intros H. unfold enc_rune. rewrite (ok3_valid _ _ _ H). unfold ok3, is_cont, in_range, rune3, enc_valid in *.
  apply andb_true_iff in H. destruct H as [H1 H2].
  assert (Hr : (224 <= vb c0 <= 239 /\ 128 <= vb c1 <= 191 /\ 128 <= vb c2 <= 191 /\ (vb c0 = 224 -> 160 <= vb c1))%N).
  { destruct (vb c0 =? 224)%N eqn:E1; [lia|]. destruct (vb c0 =? 237)%N eqn:E2; lia. }
  replace (_ <? 128)%N with false by lia. replace (_ <? 2048)%N with false by lia. replace (_ <? 65536)%N with true by lia.
  f_equal; [|f_equal; [|f_equal]]; symmetry; apply bv_vb_eq; lia.
Qed.

(** A positive width is that of a white-space character. *)
Lemma space_width_inv s k : space_width s = S k ->
  exists r x, is_space r = true /\ s = enc_rune r ++ x /\ length (enc_rune r) = S k.
Proof.
  destruct s as [|c0 s]; [discriminate|]. cbn [space_width].
  destruct (is_space (vb c0) && (vb c0 <? 128)%N) eqn:E0.
  - apply andb_true_iff in E0. destruct E0 as [Es E0]. intros [= <-]. exists (vb c0), s.
    rewrite enc_rune_ascii by lia. rewrite bv_vb. auto.
  - destruct s as [|c1 s]; [discriminate|].
    destruct (ok2 c0 c1 && is_space (rune2 c0 c1)) eqn:E1.
    + apply andb_true_iff in E1. destruct E1 as [Eo Es]. intros [= <-]. exists (rune2 c0 c1), s. now rewrite enc2.
    + destruct s as [|c2 s]; [discriminate|].
      destruct (ok3 c0 c1 c2 && is_space (rune3 c0 c1 c2)) eqn:E2; [|discriminate].
      apply andb_true_iff in E2. destruct E2 as [Eo Es]. intros [= <-]. exists (rune3 c0 c1 c2), s. now rewrite enc3.
Qed.

Lemma blank_at_width v : blank_at v <-> space_width v <> 0.
Proof.
  split.
  - intros (r & x & Hr & ->). apply white_space in Hr. rewrite space_width_blank by exact Hr.
    assert (H := enc_rune_nonempty r). destruct (enc_rune r); [congruence|discriminate].
  - intros H. destruct (space_width v) as [|k] eqn:E; [congruence|].
    apply space_width_inv in E. destruct E as (r & x & Hr & -> & _). exists r, x. split; [now apply white_space|reflexivity].
Qed.

Lemma space_width_rev_inv s k : space_width_rev s = S k ->
  exists r x, is_space r = true /\ s = rev (enc_rune r) ++ x /\ length (enc_rune r) = S k.
Proof.
  destruct s as [|c0 s]; [discriminate|]. cbn [space_width_rev].
  destruct (is_space (vb c0) && (vb c0 <? 128)%N) eqn:E0.
  - apply andb_true_iff in E0. destruct E0 as [Es E0]. intros [= <-]. exists (vb c0), s.
    rewrite enc_rune_ascii by lia. rewrite bv_vb. auto.
  - destruct s as [|c1 s]; [discriminate|].
    destruct (ok2 c1 c0 && is_space (rune2 c1 c0)) eqn:E1.
    + apply andb_true_iff in E1. destruct E1 as [Eo Es]. intros [= <-]. exists (rune2 c1 c0), s. now rewrite enc2.
    + destruct s as [|c2 s]; [discriminate|].
      destruct (ok3 c2 c1 c0 && is_space (rune3 c2 c1 c0)) eqn:E2; [|discriminate].
      apply andb_true_iff in E2. destruct E2 as [Eo Es]. intros [= <-]. exists (rune3 c2 c1 c0), s. now rewrite enc3.
Qed.

(** No white-space character starts with a continuation byte. *)
Lemma blank_head r x : is_space r = true -> exists c y, enc_rune r ++ x = c :: y /\ is_cont c = false.
Proof.
  intros Hs. unfold enc_rune. rewrite (space_valid r Hs). unfold enc_valid, is_cont, in_range.
  assert (Hc := is_space_cases r Hs).
  destruct (N.ltb_spec r 128); [|destruct (N.ltb_spec r 2048); [|destruct (N.ltb_spec r 65536); [|lia]]];
    cbn [app]; eexists; eexists; (split; [reflexivity|]); rewrite vb_bv by lia; lia.
Qed.

Lemma space_width_app u c v : u <> [] -> is_cont c = false -> space_width (u ++ c :: v) = space_width u.
Proof.
  intros Hu Hc. destruct u as [|c0 u]; [congruence|]. cbn [app space_width].
  destruct (is_space (vb c0) && (vb c0 <? 128)%N); [reflexivity|].
  destruct u as [|c1 u]; cbn [app].
  - replace (ok2 c0 c) with false by (unfold ok2; rewrite Hc; now rewrite andb_false_r). cbn [andb].
    destruct v as [|c2 v]; [reflexivity|].
    replace (ok3 c0 c c2) with false; [reflexivity|]. unfold ok3, is_cont, in_range in *.
    symmetry. apply andb_false_intro2. destruct (_ =? 224)%N eqn:E1; [lia|]. destruct (_ =? 237)%N eqn:E2; lia.
  - destruct (ok2 c0 c1 && is_space (rune2 c0 c1)); [reflexivity|].
    destruct u as [|c2 u]; cbn [app]; [|reflexivity].
    replace (ok3 c0 c1 c) with false; [reflexivity|]. unfold ok3. now rewrite Hc.
Qed.

Lemma space_width_le u : space_width u <= length u.
Proof.
  destruct (space_width u) as [|k] eqn:E; [lia|]. apply space_width_inv in E.
  destruct E as (r & x & _ & -> & <-). rewrite app_length. lia.
Qed.

(** ** Trimming does not change the fields *)

Lemma fields_skip_blank r x : is_space r = true -> fields (enc_rune r ++ x) = fields x.
Proof.
  intros Hr. assert (Hw := space_width_blank r x Hr). unfold fields.
  destruct (enc_rune r) as [|c e] eqn:E; [now elim (enc_rune_nonempty r)|].
  cbn [app fields_aux] in *. rewrite Hw. cbn [length]. clear.
  induction e as [|d e IH]; [reflexivity|]. exact IH.
Qed.

Lemma fields_aux_end r : is_space r = true -> forall t k cur, k <= length t ->
  fields_aux k cur (t ++ enc_rune r) = fields_aux k cur t.
Proof.
  intros Hr. assert (Hw := space_width_blank r [] Hr). rewrite app_nil_r in Hw.
  destruct (blank_head r [] Hr) as (c & y & He & Hc). rewrite app_nil_r in He.
  induction t as [|d t IH]; intros k cur Hk.
  - cbn [app length] in *. replace k with 0 by lia. rewrite He in *. cbn [fields_aux]. rewrite Hw. cbn [length].
    assert (G : forall y, fields_aux (length y) [] y = []).
    { clear. induction y as [|d y IH]; [reflexivity|]. exact IH. }
    destruct cur; now rewrite G.
  - cbn [app fields_aux]. cbn [length] in Hk. destruct k as [|k]; [|apply IH; lia].
    assert (Hs : space_width (d :: t ++ enc_rune r) = space_width (d :: t)).
    { rewrite He. exact (space_width_app (d :: t) c y ltac:(discriminate) Hc). }
    rewrite Hs. assert (Hle := space_width_le (d :: t)). cbn [length] in Hle.
    destruct (space_width (d :: t)) as [|k]; [apply IH; lia|].
    destruct cur; [apply IH; lia|]. f_equal. apply IH. lia.
Qed.

Lemma fields_drop_front s : forall k, k <= length s ->
  fields (drop_units space_width k s) = fields_aux k [] s.
Proof.
  induction s as [|c s IH]; intros k Hk; [reflexivity|].
  cbn [drop_units fields_aux]. cbn [length] in Hk. destruct k as [|k]; [|apply IH; lia].
  destruct (space_width (c :: s)) as [|k] eqn:E.
  - unfold fields. cbn [fields_aux]. now rewrite E.
  - assert (Hle := space_width_le (c :: s)). cbn [length] in Hle. apply IH. lia.
Qed.

Lemma drop_units_exact f c s : f (c :: s) <> 0 ->
  drop_units f 0 (c :: s) = drop_units f (pred (f (c :: s))) s.
Proof. cbn [drop_units]. destruct (f (c :: s)); [congruence|reflexivity]. Qed.

Lemma drop_units_app f e : forall x, drop_units f (length e) (e ++ x) = drop_units f 0 x.
Proof. induction e as [|c e IH]; intros x; [reflexivity|]. cbn [app length drop_units]. apply IH. Qed.

Lemma fields_drop_back n : forall s, length s <= n -> fields (rev (drop_units space_width_rev 0 (rev s))) = fields s.
Proof.
  induction n as [|n IH]; intros s Hn.
  - destruct s; [reflexivity|cbn in Hn; lia].
  - destruct (rev s) as [|c t] eqn:Er.
    { apply (f_equal (@rev ascii)) in Er. rewrite rev_involutive in Er. now subst. }
    destruct (space_width_rev (c :: t)) as [|k] eqn:Ew.
    + cbn [drop_units]. rewrite Ew, <- Er. now rewrite rev_involutive.
    + assert (Ew' := Ew). apply space_width_rev_inv in Ew. destruct Ew as (r & x & Hr & Hx & Hl).
      assert (Hs : s = rev x ++ enc_rune r).
      { rewrite <- (rev_involutive s), Er, Hx, rev_app_distr, rev_involutive. reflexivity. }
      rewrite Hx in Ew' |- *.
      assert (Hd : drop_units space_width_rev 0 (rev (enc_rune r) ++ x) = drop_units space_width_rev 0 x).
      { destruct (rev (enc_rune r)) as [|d e] eqn:Ee.
        { apply (f_equal (@length ascii)) in Ee. rewrite rev_length in Ee. rewrite Hl in Ee. discriminate. }
        cbn [app] in *. rewrite drop_units_exact by (rewrite Ew'; discriminate). rewrite Ew'. cbn [pred].
        assert (length e = k).
        { apply (f_equal (@length ascii)) in Ee. rewrite rev_length, Hl in Ee. cbn in Ee. lia. }
        subst k. apply drop_units_app. }
      rewrite Hd. assert (Hx' : x = rev (rev x)) by now rewrite rev_involutive. rewrite Hx'.
      rewrite IH.
      * rewrite Hs. unfold fields. symmetry. apply fields_aux_end; [exact Hr|lia].
      * rewrite Hs, app_length, Hl in Hn. lia.
Qed.

Lemma fields_trim s : fields (trim_space s) = fields s.
Proof.
  unfold trim_space. rewrite (fields_drop_back (length (drop_units space_width 0 s))) by lia.
  apply fields_drop_front. lia.
Qed.

(** ** The first field is the first word *)

Lemma fields_first s w : first_word s w -> exists l, fields s = w :: l.
Proof.
  intros (rs & post & -> & Hrs & Hw & Hp & Hn). apply white_list in Hrs.
  assert (Hf : fields (utf8_encode rs ++ w ++ post) = fields (w ++ post)).
  { clear Hn Hp Hw. induction Hrs as [|r rs Hr _ IH]; [reflexivity|]. cbn [utf8_encode]. rewrite <- app_assoc.
    rewrite fields_skip_blank by exact Hr. exact IH. }
  rewrite Hf. clear Hf rs Hrs.
  assert (G : forall cur, fields_aux 0 cur (w ++ post) = fields_aux 0 (rev w ++ cur) post).
  { clear Hw Hp. induction w as [|c w IH]; intros cur; [reflexivity|]. cbn [app fields_aux].
    assert (H0 := Hn 0 ltac:(cbn; lia)). cbn [skipn app] in H0. rewrite blank_at_width in H0.
    destruct (space_width (c :: w ++ post)) as [|k]; [|elim H0; discriminate].
    rewrite IH. 2:{ intros i Hi. apply (Hn (S i)). cbn; lia. }
    cbn [rev]. now rewrite <- app_assoc. }
  unfold fields. rewrite G, app_nil_r.
  destruct (rev w) as [|d l] eqn:Er.
  { elim Hw. apply (f_equal (@rev ascii)) in Er. now rewrite rev_involutive in Er. }
  assert (Hr : rev (d :: l) = w) by (rewrite <- Er; apply rev_involutive).
  destruct Hp as [->|Hp].
  - exists []. cbn [fields_aux]. now rewrite Hr.
  - apply blank_at_width in Hp. destruct post as [|c post]; [now elim Hp|].
    cbn [fields_aux]. destruct (space_width (c :: post)) as [|k]; [congruence|]. rewrite Hr. eauto.
Qed.

Lemma word_split s : exists w post, s = w ++ post /\ (post = [] \/ blank_at post) /\
  forall i, i < length w -> ~ blank_at (skipn i (w ++ post)).
Proof.
  induction s as [|c s IH].
  - exists [], []. repeat split; [now left|intros i Hi; cbn in Hi; lia].
  - destruct (space_width (c :: s)) as [|k] eqn:E.
    + destruct IH as (w & post & -> & Hp & Hn). exists (c :: w), post. repeat split; [exact Hp|].
      intros [|i] Hi; cbn [skipn app]; [rewrite blank_at_width; cbn [app] in E; congruence|]. apply Hn. cbn in Hi. lia.
    + exists [], (c :: s). repeat split; [right; apply blank_at_width; congruence|intros i Hi; cbn in Hi; lia].
Qed.

Lemma first_word_or_blank n : forall s, length s <= n ->
  (exists w, first_word s w) \/ (exists rs, s = utf8_encode rs /\ Forall white rs).
Proof.
  induction n as [|n IH]; intros s Hn.
  - destruct s; [|cbn in Hn; lia]. right. exists []. auto.
  - destruct (space_width s) as [|k] eqn:E.
    + destruct s as [|c s]; [right; exists []; auto|].
      destruct (word_split (c :: s)) as (w & post & Hs & Hp & Hw). left. exists w, [], post.
      cbn [utf8_encode app]. split; [exact Hs|]. split; [constructor|]. split; [|auto].
      intros ->. cbn [app] in Hs. subst post. destruct Hp as [Hp|Hp]; [discriminate|].
      apply blank_at_width in Hp. congruence.
    + apply space_width_inv in E. destruct E as (r & x & Hr & -> & Hl).
      rewrite app_length, Hl in Hn.
      apply white_space in Hr. destruct (IH x ltac:(lia)) as [(w & rs & post & -> & Hrs & H)|(rs & -> & Hrs)].
      * left. exists w, (r :: rs), post. cbn [utf8_encode]. rewrite <- app_assoc. split; [reflexivity|]. split; [now constructor|exact H].
      * right. exists (r :: rs). split; [reflexivity|now constructor].
Qed.

Lemma fields_first_iff s w : first_word s w <-> exists l, fields s = w :: l.
Proof.
  split; [apply fields_first|]. intros [l H].
  destruct (first_word_or_blank (length s) s ltac:(lia)) as [(w' & Hw')|(rs & -> & Hrs)].
  - assert (X := fields_first _ _ Hw'). destruct X as [l' X]. replace w with w' by congruence. exact Hw'.
  - exfalso. assert (Hf : fields (utf8_encode rs) = []).
    { clear H. apply white_list in Hrs. induction Hrs as [|r rs Hr _ IH]; [reflexivity|]. cbn [utf8_encode].
      now rewrite fields_skip_blank. }
    congruence.
Qed.

(** ** strings.TrimSpace removes the white space around a text *)

Lemma drop_blank r x : is_space r = true -> drop_units space_width 0 (enc_rune r ++ x) = drop_units space_width 0 x.
Proof.
  intros Hr. assert (Hw := space_width_blank r x Hr).
  destruct (enc_rune r) as [|c e] eqn:E; [now elim (enc_rune_nonempty r)|]. cbn [app] in *.
  rewrite drop_units_exact by (rewrite Hw; discriminate). rewrite Hw. cbn [pred length]. apply drop_units_app.
Qed.

Lemma drop_blanks rs x : Forall white rs -> drop_units space_width 0 (utf8_encode rs ++ x) = drop_units space_width 0 x.
Proof.
  intros H. apply white_list in H. induction H as [|r rs Hr _ IH]; [reflexivity|].
  cbn [utf8_encode]. rewrite <- app_assoc, drop_blank by exact Hr. exact IH.
Qed.

Lemma space_width_rev_blank r x : is_space r = true -> space_width_rev (rev (enc_rune r) ++ x) = length (enc_rune r).
Proof.
  intros Hs. unfold enc_rune. rewrite (space_valid r Hs). unfold enc_valid.
  assert (Hc := is_space_cases r Hs).
  destruct (N.ltb_spec r 128); [|destruct (N.ltb_spec r 2048); [|destruct (N.ltb_spec r 65536); [|lia]]];
    cbn [rev app space_width_rev length]; rewrite !vb_bv by lia.
  - rewrite Hs. replace (r <? 128)%N with true by lia. reflexivity.
  - replace (_ <? 128)%N with false by lia. rewrite andb_false_r.
    replace (rune2 _ _) with r by (unfold rune2; rewrite !vb_bv by lia; lia).
    replace (ok2 _ _) with true by (unfold ok2, is_cont, in_range; rewrite !vb_bv by lia; lia).
    now rewrite Hs.
  - replace (_ <? 128)%N with false by lia. rewrite andb_false_r.
    replace (ok2 _ _) with false by (unfold ok2, in_range; rewrite !vb_bv by lia; lia). cbn [andb].
    replace (rune3 _ _ _) with r by (unfold rune3; rewrite !vb_bv by lia; lia). rewrite Hs.
    replace (ok3 _ _ _) with true; [reflexivity|]. unfold ok3, is_cont, in_range. rewrite !vb_bv by lia.
    destruct (_ =? 224)%N eqn:E1; [lia|]. destruct (_ =? 237)%N eqn:E2; lia.
Qed.

Lemma drop_blank_rev r x : is_space r = true -> drop_units space_width_rev 0 (rev (enc_rune r) ++ x) = drop_units space_width_rev 0 x.
Proof.
  intros Hr. assert (Hw := space_width_rev_blank r x Hr). rewrite <- (rev_length (enc_rune r)) in Hw.
  destruct (rev (enc_rune r)) as [|c e] eqn:E.
  { apply (f_equal (@rev ascii)) in E. rewrite rev_involutive in E. now elim (enc_rune_nonempty r). }
  cbn [app] in *. rewrite drop_units_exact by (rewrite Hw; discriminate). rewrite Hw. cbn [pred length]. apply drop_units_app.
Qed.

Lemma utf8_encode_app rs ss : utf8_encode (rs ++ ss) = utf8_encode rs ++ utf8_encode ss.
Proof. induction rs as [|r rs IH]; [reflexivity|]. cbn [app utf8_encode]. now rewrite IH, app_assoc. Qed.

Lemma drop_blanks_rev rs x : Forall white rs -> drop_units space_width_rev 0 (rev (utf8_encode rs) ++ x) = drop_units space_width_rev 0 x.
Proof.
  intros H. apply white_list in H. revert x. induction rs as [|r rs IH] using rev_ind; intros x; [reflexivity|].
  apply Forall_app in H. destruct H as [H Hr]. inversion Hr as [|? ? Hr' _]; subst.
  rewrite utf8_encode_app, rev_app_distr. cbn [utf8_encode]. rewrite app_nil_r, <- app_assoc.
  rewrite drop_blank_rev by exact Hr'. now apply IH.
Qed.

Lemma no_blank_rev t : (forall r x, white r -> t <> x ++ enc_rune r) -> space_width_rev (rev t) = 0.
Proof.
  intros H. destruct (space_width_rev (rev t)) as [|k] eqn:E; [reflexivity|]. exfalso.
  apply space_width_rev_inv in E. destruct E as (r & x & Hr & He & _). apply (H r (rev x)); [now apply white_space|].
  rewrite <- (rev_involutive t), He, rev_app_distr, rev_involutive. reflexivity.
Qed.

Lemma trimmed_eq s t : trimmed s t -> t = trim_space s.
Proof.
  intros (rs & ss & Hrs & Hss & -> & Hp & Hq). unfold trim_space. rewrite drop_blanks by exact Hrs.
  assert (H0 : space_width t = 0).
  { destruct (space_width t) as [|k] eqn:E; [reflexivity|]. exfalso. apply space_width_inv in E.
    destruct E as (r & x & Hr & He & _). exact (Hp r x (proj2 (white_space r) Hr) He). }
  assert (Hd : t <> [] -> drop_units space_width 0 (t ++ utf8_encode ss) = t ++ utf8_encode ss).
  { intros Ht. apply drop_units_none. destruct ss as [|r ss]; [now rewrite app_nil_r|]. cbn [utf8_encode].
    inversion Hss as [|? ? Hr _]; subst. apply white_space in Hr.
    destruct (blank_head r (utf8_encode ss) Hr) as (c & y & E & Hc). rewrite E. now rewrite space_width_app. }
  destruct t as [|c t].
  - cbn [app]. assert (E := drop_blanks ss [] Hss). rewrite app_nil_r in E. rewrite E. reflexivity.
  - rewrite Hd by discriminate. rewrite rev_app_distr, drop_blanks_rev by exact Hss.
    rewrite drop_units_none by now apply no_blank_rev. now rewrite rev_involutive.
Qed.

Lemma drop_front n : forall s, length s <= n ->
  exists rs, Forall white rs /\ s = utf8_encode rs ++ drop_units space_width 0 s /\ space_width (drop_units space_width 0 s) = 0.
Proof.
  induction n as [|n IH]; intros s Hn; [destruct s; [|cbn in Hn; lia]; exists []; auto|].
  destruct (space_width s) as [|k] eqn:E.
  - exists []. rewrite drop_units_none by exact E. auto.
  - apply space_width_inv in E. destruct E as (r & x & Hr & -> & Hl). rewrite app_length, Hl in Hn.
    rewrite drop_blank by exact Hr. destruct (IH x ltac:(lia)) as (rs & Hrs & Hx & H0). exists (r :: rs).
    split; [constructor; [now apply white_space|exact Hrs]|]. split; [|exact H0]. cbn [utf8_encode].
    rewrite <- app_assoc. f_equal. exact Hx.
Qed.

Lemma drop_back n : forall s, length s <= n ->
  exists rs, Forall white rs /\ s = rev (utf8_encode rs) ++ drop_units space_width_rev 0 s /\
    space_width_rev (drop_units space_width_rev 0 s) = 0.
Proof.
  induction n as [|n IH]; intros s Hn; [destruct s; [|cbn in Hn; lia]; exists []; auto|].
  destruct (space_width_rev s) as [|k] eqn:E.
  - exists []. rewrite drop_units_none by exact E. auto.
  - apply space_width_rev_inv in E. destruct E as (r & x & Hr & -> & Hl). rewrite app_length, rev_length, Hl in Hn.
    rewrite drop_blank_rev by exact Hr. destruct (IH x ltac:(lia)) as (rs & Hrs & Hx & H0). exists (rs ++ [r]).
    split; [apply Forall_app; split; [exact Hrs|constructor; [now apply white_space|constructor]]|].
    split; [|exact H0]. rewrite utf8_encode_app, rev_app_distr. cbn [utf8_encode]. rewrite app_nil_r, <- app_assoc. f_equal. exact Hx.
Qed.

Lemma trim_space_trimmed s : trimmed s (trim_space s).
Proof.
  destruct (drop_front (length s) s ltac:(lia)) as (rs & Hrs & Hs & H0). unfold trim_space.
  set (d := drop_units space_width 0 s) in *.
  destruct (drop_back (length (rev d)) (rev d) ltac:(lia)) as (ss & Hss & Hd & H1).
  set (e := drop_units space_width_rev 0 (rev d)) in *.
  assert (Ed : d = rev e ++ utf8_encode ss).
  { rewrite <- (rev_involutive d), Hd, rev_app_distr, rev_involutive. reflexivity. }
  exists rs, ss. split; [exact Hrs|]. split; [exact Hss|]. split; [now rewrite <- Ed|]. split; intros r x Hr He; apply white_space in Hr.
  - rewrite He, <- app_assoc in Ed. rewrite Ed, space_width_blank in H0 by exact Hr.
    elim (enc_rune_nonempty r). now apply length_zero_iff_nil.
  - assert (Ee : e = rev (enc_rune r) ++ rev x) by (rewrite <- (rev_involutive e), He, rev_app_distr; reflexivity).
    rewrite Ee, space_width_rev_blank in H1 by exact Hr. elim (enc_rune_nonempty r). now apply length_zero_iff_nil.
Qed.

Lemma trimmed_iff s t : trimmed s t <-> t = trim_space s.
Proof. split; [apply trimmed_eq|intros ->; apply trim_space_trimmed]. Qed.
