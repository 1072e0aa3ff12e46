(** Lemmas about Json. *)
From Verif Require Import Base Utf8 GoStrings GoStringsProof Float64 Float64Proof Json Spec_Json.

Lemma wsp_ws w : wsp w -> forallb is_jws w = true.
Proof.
  intros H. apply forallb_forall. intros c Hc. unfold wsp in H; rewrite Forall_forall in H.
  specialize (H c Hc). simpl in H. destruct H as [<-|[<-|[<-|[<-|[]]]]]; reflexivity.
Qed.

Lemma wsp_app x y : wsp x -> wsp y -> wsp (x ++ y).
Proof. intros. now apply Forall_app. Qed.

Lemma skip_ws_app w s : wsp w -> skip_ws (w ++ s) = skip_ws s.
Proof.
  intros H. apply wsp_ws in H. induction w as [|c w IH]; [reflexivity|].
  simpl in *. apply andb_true_iff in H. destruct H as [-> H]. auto.
Qed.

Lemma skip_ws_all w : wsp w -> skip_ws w = [].
Proof. intros H. rewrite <- (app_nil_r w), skip_ws_app by exact H. reflexivity. Qed.

Lemma skip_ws_head c s : is_jws c = false -> skip_ws (c :: s) = c :: s.
Proof. simpl. now intros ->. Qed.

Lemma skip_ws_length s : length (skip_ws s) <= length s.
Proof. induction s as [|c s IH]; simpl; [lia|]. destruct (is_jws c); simpl; lia. Qed.

(** ** Strings *)

Lemma hex_digit_val c n : hex_digit c n -> hex_val c = Some (N.of_nat n).
Proof.
  intros [H|H]; do 16 (destruct n as [|n]; [injection H as <-; reflexivity|]);
    simpl in H; destruct n; discriminate.
Qed.

Lemma enc_valid_bytes q c :
  (32 <= q)%N -> q <> 34%N -> q <> 92%N -> (q < 1114112)%N -> In c (enc_valid q) ->
  (vb c =? 34)%N = false /\ (vb c =? 92)%N = false /\ (vb c <? 32)%N = false.
Proof.
  intros Q1 Q2 Q3 Q4. unfold enc_valid.
  destruct (q <? 128)%N eqn:E1; intros Hin.
  - destruct Hin as [<-|[]]. rewrite vb_bv by lia. lia.
  - assert (128 <= vb c)%N; [|lia].
    revert Hin. destruct (q <? 2048)%N eqn:E2; [|destruct (q <? 65536)%N eqn:E3]; intros Hin;
      repeat (destruct Hin as [<-|Hin]; [rewrite vb_bv by lia; lia|]); destruct Hin.
Qed.

Lemma enc_rune_bytes r c :
  (32 <= r)%N -> r <> 34%N -> r <> 92%N -> In c (enc_rune r) ->
  (vb c =? 34)%N = false /\ (vb c =? 92)%N = false /\ (vb c <? 32)%N = false.
Proof.
  intros H1 H2 H3. unfold enc_rune. destruct (valid_rune r) eqn:E.
  - apply enc_valid_bytes; auto. unfold valid_rune, in_range in E. lia.
  - apply enc_valid_bytes; unfold rune_error; lia.
Qed.

Lemma pstring_raw t rest us r :
  (forall c, In c t ->
     (vb c =? 34)%N = false /\ (vb c =? 92)%N = false /\ (vb c <? 32)%N = false) ->
  pstring rest = Some (us, r) ->
  pstring (t ++ rest) = Some (map Raw t ++ us, r).
Proof.
  intros Ht H. induction t as [|c t IH]; simpl; [exact H|].
  destruct (Ht c) as (-> & -> & ->); [now left|].
  rewrite IH; [reflexivity|]. intros d Hd. apply Ht. now right.
Qed.

Lemma unquote_raw t : forall us run, unquote (map Raw t ++ us) run = unquote us (rev t ++ run).
Proof.
  induction t as [|c t IH]; intros us run; simpl; [reflexivity|].
  rewrite IH. now rewrite <- app_assoc.
Qed.

Lemma sanitize_valid s : valid_utf8 s -> sanitize s = s.
Proof. intros H. unfold sanitize. now apply valid_utf8_encode_decode. Qed.

Lemma valid_utf8_nil : valid_utf8 [].
Proof. exists []. split; [constructor|reflexivity]. Qed.

Lemma valid_utf8_rune r : valid_rune r = true -> valid_utf8 (enc_rune r).
Proof. intros H. exists [r]. split; [auto|]. simpl. now rewrite app_nil_r. Qed.

Lemma valid_not_surrogate r : valid_rune r = true -> is_surrogate r = false.
Proof. unfold valid_rune, is_surrogate, in_range. lia. Qed.

Lemma hex4_pstring h u rest us r :
  hex4 h u -> pstring rest = Some (us, r) ->
  pstring ("\"%char :: "u"%char :: h ++ rest) = Some (Esc u :: us, r).
Proof.
  intros (c1 & c2 & c3 & c4 & n1 & n2 & n3 & n4 & -> & H1 & H2 & H3 & H4 & ->) H.
  simpl app. cbn [pstring].
  change (vb "\" =? 34)%N with false. change (vb "\" =? 92)%N with true.
  change (vb "u" =? 117)%N with true. cbv iota.
  rewrite (hex_digit_val _ _ H1), (hex_digit_val _ _ H2), (hex_digit_val _ _ H3),
    (hex_digit_val _ _ H4), H. do 3 f_equal. f_equal. lia.
Qed.

Lemma str_text_units rs t :
  str_text rs t ->
  exists us, (forall rest, pstring (t ++ quote :: rest) = Some (us, rest)) /\
    forall run, valid_utf8 (rev run) -> unquote us run = rev run ++ utf8_encode rs.
Proof.
  induction 1 as [|r rs t Hv H32 H34 H92 _ IH|c r rs t Hin _ IH|r h rs t Hh Hv _ IH
                  |r h l rs t Hv Hr Hh Hl _ IH].
  - exists []. split; [reflexivity|]. intros run Hrun. simpl.
    now rewrite sanitize_valid, app_nil_r.
  - destruct IH as (us & Hp & Hu). exists (map Raw (enc_rune r) ++ us). split.
    + intros rest. rewrite <- app_assoc. apply pstring_raw; [|apply Hp].
      intros c Hc. now apply (enc_rune_bytes r).
    + intros run Hrun. rewrite unquote_raw, Hu.
      * rewrite rev_app_distr, rev_involutive. simpl. now rewrite app_assoc.
      * rewrite rev_app_distr, rev_involutive. apply valid_utf8_app; [exact Hrun|].
        now apply valid_utf8_rune.
  - destruct IH as (us & Hp & Hu). exists (Esc r :: us). split.
    + intros rest. specialize (Hp rest).
      simpl in Hin. repeat (destruct Hin as [[= <- <-]|Hin]; [simpl; rewrite Hp; reflexivity|]).
      destruct Hin.
    + intros run Hrun. simpl.
      rewrite sanitize_valid by exact Hrun.
      replace (is_surrogate r) with false.
      * rewrite Hu by apply valid_utf8_nil. reflexivity.
      * symmetry. simpl in Hin.
        repeat (destruct Hin as [[= <- <-]|Hin]; [reflexivity|]). destruct Hin.
  - destruct IH as (us & Hp & Hu). exists (Esc r :: us). split.
    + intros rest. change (("\"%char :: "u"%char :: h ++ t) ++ quote :: rest)
        with ("\"%char :: "u"%char :: (h ++ t) ++ quote :: rest).
      rewrite <- app_assoc. apply hex4_pstring; [exact Hh|apply Hp].
    + intros run Hrun. simpl. rewrite sanitize_valid by exact Hrun.
      rewrite (valid_not_surrogate r Hv), Hu by apply valid_utf8_nil. reflexivity.
  - destruct IH as (us & Hp & Hu).
    set (u1 := (55296 + (r - 65536) / 1024)%N) in *.
    set (u2 := (56320 + (r - 65536) mod 1024)%N) in *.
    assert (Hrange : (r <= 1114111)%N) by (unfold valid_rune, in_range in Hv; lia).
    exists (Esc u1 :: Esc u2 :: us). split.
    + intros rest. specialize (Hp rest).
      change (b "\u" ++ h ++ b "\u" ++ l ++ t) with
        ("\"%char :: "u"%char :: h ++ "\"%char :: "u"%char :: l ++ t).
      change ((?x :: ?y :: ?z) ++ ?w) with (x :: y :: z ++ w).
      rewrite <- app_assoc.
      change (("\"%char :: "u"%char :: l ++ t) ++ quote :: rest) with
        ("\"%char :: "u"%char :: (l ++ t) ++ quote :: rest).
      rewrite <- app_assoc.
      apply hex4_pstring; [exact Hh|]. apply hex4_pstring; [exact Hl|exact Hp].
    + intros run Hrun. simpl. rewrite sanitize_valid by exact Hrun.
      assert (Hs : is_surrogate u1 = true) by (unfold is_surrogate, in_range, u1; lia).
      assert (Hpr : is_pair u1 u2 = true) by (unfold is_pair, in_range, u1, u2; lia).
      rewrite Hs, Hpr, Hu by apply valid_utf8_nil.
      replace (pair_rune u1 u2) with r by (unfold pair_rune, u1, u2; lia). reflexivity.
Qed.

(** ** Numbers *)

(** What may follow a value. *)
Definition delim (s : bytes) : bool :=
  match s with
  | [] => true
  | c :: _ => is_jws c || (vb c =? 44)%N || (vb c =? 93)%N || (vb c =? 125)%N
  end.

Lemma delim_head c s :
  delim (c :: s) = true ->
  is_digit c = false /\ (vb c =? 46)%N = false /\ (vb c =? 101)%N = false /\ (vb c =? 69)%N = false.
Proof.
  unfold delim, is_jws, is_digit, in_range. intros H. repeat split; lia.
Qed.

Lemma take_digits_app ds rest :
  all_digits ds -> (match rest with [] => true | c :: _ => negb (is_digit c) end) = true ->
  take_digits (ds ++ rest) = (ds, rest).
Proof.
  intros H Hr. induction ds as [|c ds IH]; simpl.
  - destruct rest as [|c rest]; [reflexivity|]. simpl. apply negb_true_iff in Hr. now rewrite Hr.
  - inversion H as [|? ? Hc Hds]; subst. rewrite Hc. now rewrite IH.
Qed.

Lemma exp_head_nodigit e et rest :
  exp_text e et -> delim rest = true ->
  (match et ++ rest with [] => true | c :: _ => negb (is_digit c) end) = true.
Proof.
  intros H Hd. destruct H as [|c ds Hin|c ds Hin|c ds Hin]; simpl.
  - destruct rest as [|c rest]; [reflexivity|]. apply delim_head in Hd.
    destruct Hd as [-> _]. reflexivity.
  - destruct Hin as [<-|[<-|[]]]; reflexivity.
  - destruct Hin as [<-|[<-|[]]]; reflexivity.
  - destruct Hin as [<-|[<-|[]]]; reflexivity.
Qed.

Lemma digits_nodigit_rest rest : delim rest = true ->
  (match rest with [] => true | c :: _ => negb (is_digit c) end) = true.
Proof.
  intros Hd. destruct rest as [|c rest]; [reflexivity|]. apply delim_head in Hd.
  destruct Hd as [-> _]. reflexivity.
Qed.

Lemma pexp_spec neg ip fp e et rest :
  exp_text e et -> delim rest = true ->
  pexp neg ip fp (et ++ rest) = Some (num_value neg ip fp e, rest).
Proof.
  intros H Hd. pose proof (digits_nodigit_rest _ Hd) as Hn.
  destruct H as [|c ds Hin Hds Hne|c ds Hin Hds Hne|c ds Hin Hds Hne]; simpl app; unfold pexp.
  - destruct rest as [|c rest]; [reflexivity|]. apply delim_head in Hd.
    destruct Hd as (_ & _ & -> & ->). reflexivity.
  - assert (Hc : (vb c =? 101)%N || (vb c =? 69)%N = true).
    { destruct Hin as [<-|[<-|[]]]; reflexivity. }
    rewrite Hc. destruct ds as [|d ds]; [congruence|]. simpl app.
    inversion Hds as [|? ? Hd1 Hds1]; subst.
    assert (Hsg : (vb d =? 45)%N = false /\ (vb d =? 43)%N = false).
    { unfold is_digit, in_range in Hd1. lia. }
    destruct Hsg as [-> ->]. change (d :: ds ++ rest) with ((d :: ds) ++ rest).
    rewrite take_digits_app by assumption. reflexivity.
  - assert (Hc : (vb c =? 101)%N || (vb c =? 69)%N = true).
    { destruct Hin as [<-|[<-|[]]]; reflexivity. }
    rewrite Hc. change (vb "+" =? 45)%N with false. change (vb "+" =? 43)%N with true. cbv iota.
    rewrite take_digits_app by assumption. destruct ds; [congruence|reflexivity].
  - assert (Hc : (vb c =? 101)%N || (vb c =? 69)%N = true).
    { destruct Hin as [<-|[<-|[]]]; reflexivity. }
    rewrite Hc. change (vb "-" =? 45)%N with true. cbv iota.
    rewrite take_digits_app by assumption. destruct ds; [congruence|reflexivity].
Qed.

Lemma pfrac_spec neg ip fp ft e et rest :
  frac_text fp ft -> exp_text e et -> delim rest = true ->
  pfrac neg ip (ft ++ et ++ rest) = Some (num_value neg ip fp e, rest).
Proof.
  intros Hf He Hd. destruct Hf as [|ds Hds Hne]; simpl app; unfold pfrac.
  - assert (Hdot : match et ++ rest with [] => True | c :: _ => (vb c =? 46)%N = false end).
    { destruct He as [|c ds Hin|c ds Hin|c ds Hin]; simpl;
        try (destruct Hin as [<-|[<-|[]]]; reflexivity).
      destruct rest as [|c rest]; [exact I|]. now apply delim_head in Hd. }
    pose proof (pexp_spec neg ip [] e et rest He Hd) as Hp.
    destruct (et ++ rest) as [|c r]; [exact Hp|]. now rewrite Hdot.
  - change (vb "." =? 46)%N with true. cbv iota.
    rewrite take_digits_app; [|assumption|].
    + destruct ds; [congruence|]. now apply pexp_spec.
    + eapply exp_head_nodigit; eassumption.
Qed.

Lemma frac_head_nodigit fp ft e et rest :
  frac_text fp ft -> exp_text e et -> delim rest = true ->
  (match ft ++ et ++ rest with [] => true | c :: _ => negb (is_digit c) end) = true.
Proof.
  intros Hf He Hd. destruct Hf as [|ds Hds Hne]; simpl; [|reflexivity].
  eapply exp_head_nodigit; eassumption.
Qed.

Lemma puint_spec neg ip fp ft e et rest :
  int_part ip -> frac_text fp ft -> exp_text e et -> delim rest = true ->
  puint neg (ip ++ ft ++ et ++ rest) = Some (num_value neg ip fp e, rest).
Proof.
  intros [Hds Hip] Hf He Hd. destruct Hip as [->|(c & r & -> & Hc)].
  - simpl. change (vb "0" =? 48)%N with true. cbv iota. now apply pfrac_spec.
  - simpl app. unfold puint.
    assert (Hc0 : (vb c =? 48)%N = false).
    { apply N.eqb_neq. intros H. apply Hc. now apply vb_inj. }
    rewrite Hc0. inversion Hds as [|? ? Hc1 Hr]; subst. rewrite Hc1.
    change (c :: r ++ ft ++ et ++ rest) with ((c :: r) ++ ft ++ et ++ rest).
    rewrite take_digits_app; [|assumption|].
    + now apply pfrac_spec.
    + eapply frac_head_nodigit; eassumption.
Qed.

Lemma int_part_head ip : int_part ip -> exists c r, ip = c :: r /\ is_digit c = true.
Proof.
  intros [Hds Hip]. destruct Hip as [->|(c & r & -> & Hc)].
  - exists "0"%char, []. auto.
  - exists c, r. split; [reflexivity|]. now inversion Hds.
Qed.

Lemma pnumber_spec f t rest :
  num_text f t -> delim rest = true -> pnumber (t ++ rest) = Some (Some f, rest).
Proof.
  intros H Hd. destruct H as [neg ip fp ft e et f Hip Hf He Hv].
  rewrite <- !app_assoc.
  pose proof (puint_spec neg ip fp ft e et rest Hip Hf He Hd) as Hp.
  unfold num_value in Hp. rewrite Hv in Hp. destruct neg.
  - simpl. change (vb "-" =? 45)%N with true. cbv iota. exact Hp.
  - simpl app. destruct (int_part_head ip Hip) as (c & r & -> & Hc). simpl app in *.
    unfold pnumber. replace (vb c =? 45)%N with false; [exact Hp|].
    symmetry. unfold is_digit, in_range in Hc. lia.
Qed.

(** ** Values *)

Lemma num_text_head f t : num_text f t ->
  exists c r, t = c :: r /\ (is_digit c = true \/ c = "-"%char).
Proof.
  intros H. destruct H as [neg ip fp ft e et f Hip Hf He Hv].
  destruct (int_part_head ip Hip) as (c & r & -> & Hc).
  destruct neg; simpl; eauto.
Qed.

Lemma num_head_misc c : is_digit c = true \/ c = "-"%char ->
  is_jws c = false /\ (vb c =? 123)%N = false /\ (vb c =? 91)%N = false /\ (vb c =? 34)%N = false /\
  (forall s p, (p = b "true" \/ p = b "false" \/ p = b "null") -> has_prefix p (c :: s) = false).
Proof.
  intros [H| ->].
  - unfold is_jws, is_digit, in_range in *. repeat split; try lia.
    intros s p [->|[->| ->]]; cbn [b list_ascii_of_string has_prefix];
      match goal with |- (Ascii.eqb ?x ?y && _) = _ => replace (Ascii.eqb x y) with false; [reflexivity|] end;
      symmetry; apply Ascii.eqb_neq; intros E; subst c; vm_compute in H; discriminate.
  - repeat split. intros s p [->|[->| ->]]; reflexivity.
Qed.

Lemma json_text_nonempty n v t : json_text n v t -> 1 <= length t.
Proof.
  intros H. destruct H; simpl; try lia.
  destruct (num_text_head f t H) as (c & r & -> & _). simpl. lia.
Qed.

Lemma json_text_head n v t : json_text n v t -> exists c r, t = c :: r /\ is_jws c = false.
Proof.
  intros H. destruct H as [| | |n f t Hn|n rs t Hs|n w Hw|n l t He|n w Hw|n ms t Hm];
    try (eexists; eexists; split; [reflexivity|reflexivity]).
  destruct (num_text_head f t Hn) as (c & r & -> & Hc).
  apply num_head_misc in Hc. exists c, r. tauto.
Qed.

Lemma pvalue_skip w s f d : wsp w -> pvalue f d (w ++ s) = pvalue f d s.
Proof. intros H. destruct f as [|f]; [reflexivity|]. cbn [pvalue]. now rewrite skip_ws_app. Qed.

Lemma delim_ws w s : wsp w -> delim s = true -> delim (w ++ s) = true.
Proof.
  intros H Hd. apply wsp_ws in H. destruct w as [|c w]; [exact Hd|].
  simpl in *. apply andb_true_iff in H. destruct H as [-> _]. reflexivity.
Qed.

Lemma obj_of_acc ms : forall acc,
  fold_left (fun m kv => mset (fst kv) (snd kv) m) ms acc =
  fold_left (fun (m : gmap json) kv => mset (fst kv) (snd kv) m) ms acc.
Proof. reflexivity. Qed.

Lemma is_max_depth (d : N) n : (d + N.of_nat (S n) <= 10000)%N -> (max_depth <=? d)%N = false.
Proof. unfold max_depth. lia. Qed.

Theorem json_text_parse :
  (forall n v t, json_text n v t ->
     forall f d rest, length t <= f -> (d + N.of_nat n <= 10000)%N -> delim rest = true ->
       pvalue f d (t ++ rest) = JOk v true rest) /\
  (forall n l t, elems_text n l t ->
     forall f d acc rest, length t < f -> (d + N.of_nat n <= 10000)%N ->
       pelems f d acc true (t ++ "]"%char :: rest) = JOk (JArr (rev acc ++ l)) true rest) /\
  (forall n ms t, members_text n ms t ->
     forall f d acc rest, length t < f -> (d + N.of_nat n <= 10000)%N ->
       pmembers f d acc true (t ++ "}"%char :: rest) =
       JOk (JObj (fold_left (fun m kv => mset (fst kv) (snd kv) m) ms acc)) true rest).
Proof.
  apply json_text_all.
  - intros n f d rest Hf Hd Hr. destruct f as [|f]; [simpl in Hf; lia|]. reflexivity.
  - intros n f d rest Hf Hd Hr. destruct f as [|f]; [simpl in Hf; lia|]. reflexivity.
  - intros n f d rest Hf Hd Hr. destruct f as [|f]; [simpl in Hf; lia|]. reflexivity.
  - intros n x t Hn f d rest Hf Hd Hr.
    pose proof (pnumber_spec _ _ _ Hn Hr) as Hp.
    destruct (num_text_head _ _ Hn) as (c & r & -> & Hc).
    destruct (num_head_misc c Hc) as (H1 & H2 & H3 & H4 & H5).
    destruct f as [|f]; [simpl in Hf; lia|].
    simpl app in *. cbn [pvalue]. rewrite skip_ws_head by exact H1.
    rewrite H2, H3, H4, !H5 by auto. now rewrite Hp.
  - intros n rs t Hs f d rest Hf Hd Hr. destruct f as [|f]; [simpl in Hf; lia|].
    destruct (str_text_units _ _ Hs) as (us & Hp & Hu).
    simpl app. rewrite <- app_assoc. simpl app. cbn [pvalue].
    rewrite skip_ws_head by reflexivity.
    change (vb quote =? 123)%N with false. change (vb quote =? 91)%N with false.
    change (vb quote =? 34)%N with true. cbv iota.
    rewrite Hp, Hu by apply valid_utf8_nil. reflexivity.
  - intros n w Hw f d rest Hf Hd Hr. destruct f as [|f]; [simpl in Hf; lia|].
    simpl app. rewrite <- app_assoc. simpl app. cbn [pvalue].
    rewrite skip_ws_head by reflexivity. rewrite (is_max_depth d n Hd).
    change (vb "[" =? 123)%N with false. change (vb "[" =? 91)%N with true. cbv iota.
    rewrite skip_ws_app by exact Hw. rewrite skip_ws_head by reflexivity. reflexivity.
  - intros n l t He IH f d rest Hf Hd Hr. destruct f as [|f]; [simpl in Hf; lia|].
    assert (Hne : exists c r, skip_ws (t ++ "]"%char :: rest) = c :: r /\ (vb c =? 93)%N = false
                  /\ skip_ws (c :: r) = c :: r).
    { destruct He as [n w1 v t w2 H1 H2 H3|n w1 v t w2 l t' H1 H2 H3 H4];
        destruct (json_text_head _ _ _ H2) as (c & r & -> & Hc);
        rewrite <- !app_assoc, skip_ws_app by exact H1; simpl app;
        rewrite skip_ws_head by exact Hc;
        (eexists; eexists; split; [reflexivity|]; split; [|now apply skip_ws_head]).
      - inversion H2; subst; try reflexivity.
        match goal with H : num_text _ _ |- _ => destruct (num_text_head _ _ H) as (c' & r' & [= <- <-] & [Hd1| ->]) end;
        [unfold is_digit, in_range in Hd1; lia|reflexivity].
      - inversion H2; subst; try reflexivity.
        match goal with H : num_text _ _ |- _ => destruct (num_text_head _ _ H) as (c' & r' & [= <- <-] & [Hd1| ->]) end;
        [unfold is_digit, in_range in Hd1; lia|reflexivity]. }
    simpl app. rewrite <- app_assoc. simpl app. cbn [pvalue].
    rewrite skip_ws_head by reflexivity. rewrite (is_max_depth d n Hd).
    change (vb "[" =? 123)%N with false. change (vb "[" =? 91)%N with true. cbv iota.
    destruct Hne as (c & r & Hs & Hc & Hs2). rewrite Hs, Hc.
    assert (Hsk : forall acc fi, pelems f (d + 1) acc fi (c :: r) =
                  pelems f (d + 1) acc fi (t ++ "]"%char :: rest)).
    { intros acc fi. destruct f as [|f']; [reflexivity|]. cbn [pelems].
      assert (Hpv : pvalue f' (d + 1) (c :: r) = pvalue f' (d + 1) (t ++ "]"%char :: rest)).
      { destruct f' as [|f'']; [reflexivity|]. cbn [pvalue]. now rewrite Hs, Hs2. }
      now rewrite Hpv. }
    rewrite Hsk, IH; [reflexivity| |lia].
    simpl in Hf. rewrite app_length in Hf. simpl in Hf. lia.
  - intros n w Hw f d rest Hf Hd Hr. destruct f as [|f]; [simpl in Hf; lia|].
    simpl app. rewrite <- app_assoc. simpl app. cbn [pvalue].
    rewrite skip_ws_head by reflexivity. rewrite (is_max_depth d n Hd).
    change (vb "{" =? 123)%N with true. cbv iota.
    rewrite skip_ws_app by exact Hw. rewrite skip_ws_head by reflexivity. reflexivity.
  - intros n ms t Hm IH f d rest Hf Hd Hr. destruct f as [|f]; [simpl in Hf; lia|].
    assert (Hne : exists r, skip_ws (t ++ "}"%char :: rest) = quote :: r).
    { destruct Hm; rewrite <- !app_assoc, skip_ws_app by assumption; simpl app;
        rewrite skip_ws_head by reflexivity; eauto. }
    simpl app. rewrite <- app_assoc. simpl app. cbn [pvalue].
    rewrite skip_ws_head by reflexivity. rewrite (is_max_depth d n Hd).
    change (vb "{" =? 123)%N with true. cbv iota.
    destruct Hne as (r & Hs). rewrite Hs. change (vb quote =? 125)%N with false. cbv iota.
    assert (Hsk : pmembers f (d + 1) [] true (quote :: r) =
                  pmembers f (d + 1) [] true (t ++ "}"%char :: rest)).
    { destruct f as [|f']; [reflexivity|]. cbn [pmembers]. rewrite Hs.
      now rewrite skip_ws_head by reflexivity. }
    rewrite Hsk, IH; [reflexivity| |lia].
    simpl in Hf. rewrite app_length in Hf. simpl in Hf. lia.
  - intros n w1 v t w2 H1 H2 IH H3 f d acc rest Hf Hd.
    destruct f as [|f]; [lia|]. rewrite !app_length in Hf.
    cbn [pelems]. rewrite <- !app_assoc, pvalue_skip by exact H1.
    rewrite IH; [|lia|lia|apply delim_ws; [exact H3|reflexivity]].
    rewrite skip_ws_app by exact H3. rewrite skip_ws_head by reflexivity.
    reflexivity.
  - intros n w1 v t w2 l t' H1 H2 IH H3 H4 IH2 f d acc rest Hf Hd.
    destruct f as [|f]; [lia|]. rewrite !app_length in Hf. simpl length in Hf.
    cbn [pelems]. rewrite <- !app_assoc, pvalue_skip by exact H1.
    rewrite IH; [|lia|lia|apply delim_ws; [exact H3|reflexivity]].
    rewrite skip_ws_app by exact H3. simpl app. rewrite skip_ws_head by reflexivity.
    change (vb "," =? 44)%N with true. cbv iota. simpl andb.
    rewrite IH2; [|lia|lia]. simpl. now rewrite <- app_assoc.
  - intros n w1 k kt w2 w3 v t w4 H1 Hk H2 H3 Hv IH H4 f d acc rest Hf Hd.
    destruct f as [|f]; [lia|]. repeat (rewrite app_length in Hf || simpl length in Hf).
    destruct (str_text_units _ _ Hk) as (us & Hp & Hu).
    cbn [pmembers]. rewrite <- !app_assoc, skip_ws_app by exact H1. simpl app.
    rewrite skip_ws_head by reflexivity. change (vb quote =? 34)%N with true. cbv iota.
    rewrite <- app_assoc. simpl app. rewrite Hp.
    rewrite <- app_assoc, skip_ws_app by exact H2. simpl app.
    rewrite skip_ws_head by reflexivity.
    change (vb ":" =? 58)%N with true. cbv iota.
    rewrite <- !app_assoc, pvalue_skip by exact H3.
    rewrite IH; [|lia|lia|apply delim_ws; [exact H4|reflexivity]].
    rewrite skip_ws_app by exact H4. rewrite skip_ws_head by reflexivity.
    rewrite Hu by apply valid_utf8_nil. reflexivity.
  - intros n w1 k kt w2 w3 v t w4 ms t' H1 Hk H2 H3 Hv IH H4 Hms IH2 f d acc rest Hf Hd.
    destruct f as [|f]; [lia|]. repeat (rewrite app_length in Hf || simpl length in Hf).
    destruct (str_text_units _ _ Hk) as (us & Hp & Hu).
    cbn [pmembers]. rewrite <- !app_assoc, skip_ws_app by exact H1. simpl app.
    rewrite skip_ws_head by reflexivity. change (vb quote =? 34)%N with true. cbv iota.
    rewrite <- app_assoc. simpl app. rewrite Hp.
    rewrite <- app_assoc, skip_ws_app by exact H2. simpl app.
    rewrite skip_ws_head by reflexivity.
    change (vb ":" =? 58)%N with true. cbv iota.
    rewrite <- !app_assoc, pvalue_skip by exact H3.
    rewrite IH; [|lia|lia|apply delim_ws; [exact H4|reflexivity]].
    rewrite skip_ws_app by exact H4. simpl app. rewrite skip_ws_head by reflexivity.
    change (vb "," =? 44)%N with true. cbv iota. simpl andb.
    rewrite IH2; [|lia|lia]. rewrite Hu by apply valid_utf8_nil. reflexivity.
Qed.

Lemma unmarshal_doc v s : json_doc v s -> unmarshal s = (Some v, true).
Proof.
  intros (n & w1 & t & w2 & Hn & H1 & Ht & H2 & ->). unfold unmarshal.
  rewrite pvalue_skip by exact H1.
  rewrite (proj1 json_text_parse _ _ _ Ht).
  - now rewrite skip_ws_all.
  - rewrite !app_length. lia.
  - lia.
  - rewrite <- (app_nil_r w2). now apply delim_ws.
Qed.

Lemma unmarshal_map_doc m s : json_doc (JObj m) s -> unmarshal_map s = (Some m, true).
Proof. intros H. unfold unmarshal_map. now rewrite (unmarshal_doc _ _ H). Qed.

(** A text with two readings would make the specification useless. *)
Lemma json_doc_functional v v' s : json_doc v s -> json_doc v' s -> v = v'.
Proof. intros H H'. apply unmarshal_doc in H, H'. congruence. Qed.

(** ** Splicing member lists, as LoadItems does *)

Lemma members_text_app n ms1 t1 ms2 t2 :
  members_text n ms1 t1 -> members_text n ms2 t2 ->
  members_text n (ms1 ++ ms2) (t1 ++ ","%char :: t2).
Proof.
  intros H H2. induction H; simpl.
  - replace ((w1 ++ quote :: kt ++ quote :: w2 ++ ":"%char :: w3 ++ t ++ w4) ++ ","%char :: t2)
      with (w1 ++ quote :: kt ++ quote :: w2 ++ ":"%char :: w3 ++ t ++ w4 ++ ","%char :: t2).
    + now constructor.
    + repeat (rewrite <- app_assoc || simpl app). reflexivity.
  - replace ((w1 ++ quote :: kt ++ quote :: w2 ++ ":"%char :: w3 ++ t ++ w4 ++ ","%char :: t') ++ ","%char :: t2)
      with (w1 ++ quote :: kt ++ quote :: w2 ++ ":"%char :: w3 ++ t ++ w4 ++ ","%char :: (t' ++ ","%char :: t2)).
    + constructor; auto.
    + repeat (rewrite <- app_assoc || simpl app). reflexivity.
Qed.

(** ** The parser never runs out of fuel *)

Lemma pstring_length s : forall us r, pstring s = Some (us, r) -> length r < length s.
Proof.
  induction s as [s IH] using (induction_ltof1 _ (@length ascii)). unfold ltof in IH.
  intros us r. destruct s as [|c s1]; simpl; [discriminate|].
  destruct (vb c =? 34)%N; [intros [= <- <-]; lia|].
  destruct (vb c =? 92)%N.
  - destruct s1 as [|e s2]; [discriminate|].
    destruct (vb e =? 117)%N.
    + destruct s2 as [|h1 [|h2 [|h3 [|h4 s3]]]]; try discriminate.
      destruct (hex_val h1), (hex_val h2), (hex_val h3), (hex_val h4); try discriminate.
      destruct (pstring s3) as [[us' r']|] eqn:E; [|discriminate].
      intros [= <- <-]. apply IH in E; simpl in *; lia.
    + destruct (simple_escape e); [|discriminate].
      destruct (pstring s2) as [[us' r']|] eqn:E; [|discriminate].
      intros [= <- <-]. apply IH in E; simpl in *; lia.
  - destruct (vb c <? 32)%N; [discriminate|].
    destruct (pstring s1) as [[us' r']|] eqn:E; [|discriminate].
    intros [= <- <-]. apply IH in E; simpl in *; lia.
Qed.

Lemma take_digits_length s : forall ds r, take_digits s = (ds, r) -> length r <= length s.
Proof.
  induction s as [|c s IH]; intros ds r; simpl; [intros [= <- <-]; simpl; lia|].
  destruct (is_digit c); [|intros [= <- <-]; simpl; lia].
  destruct (take_digits s) as [ds' r'] eqn:E. intros [= <- <-].
  specialize (IH _ _ eq_refl). lia.
Qed.

Lemma pexp_length neg ip fp s o r : pexp neg ip fp s = Some (o, r) -> length r <= length s.
Proof.
  unfold pexp. destruct s as [|c s]; [intros [= <- <-]; simpl; lia|].
  destruct ((vb c =? 101) || (vb c =? 69))%N; [|intros [= <- <-]; lia].
  destruct (match s with [] => _ | _ => _ end) as [eneg r1] eqn:E1.
  assert (H1 : length r1 <= length s).
  { destruct s as [|c2 r2]; [injection E1 as <- <-; lia|].
    destruct (vb c2 =? 45)%N; [injection E1 as <- <-; simpl; lia|].
    destruct (vb c2 =? 43)%N; injection E1 as <- <-; simpl; lia. }
  destruct (take_digits r1) as [es r2] eqn:E2. apply take_digits_length in E2.
  destruct es; [discriminate|]. intros [= <- <-]. simpl. lia.
Qed.

Lemma pfrac_length neg ip s o r : pfrac neg ip s = Some (o, r) -> length r <= length s.
Proof.
  unfold pfrac. destruct s as [|c s]; [apply pexp_length|].
  destruct (vb c =? 46)%N; [|apply pexp_length].
  destruct (take_digits s) as [fp r1] eqn:E. apply take_digits_length in E.
  destruct fp; [discriminate|]. intros H. apply pexp_length in H. simpl. lia.
Qed.

Lemma puint_length neg s o r : puint neg s = Some (o, r) -> length r <= length s.
Proof.
  unfold puint. destruct s as [|c s]; [discriminate|].
  destruct (vb c =? 48)%N; [intros H; apply pfrac_length in H; simpl; lia|].
  destruct (is_digit c); [|discriminate].
  destruct (take_digits (c :: s)) as [ip r1] eqn:E. apply take_digits_length in E.
  intros H. apply pfrac_length in H. lia.
Qed.

Lemma pnumber_length s o r : pnumber s = Some (o, r) -> length r <= length s.
Proof.
  unfold pnumber. destruct s as [|c s]; [discriminate|].
  destruct (vb c =? 45)%N; intros H; apply puint_length in H; simpl in *; lia.
Qed.

Lemma parse_length fuel :
  (forall d s v fi r, pvalue fuel d s = JOk v fi r -> length r <= length s) /\
  (forall d acc fine s v fi r, pelems fuel d acc fine s = JOk v fi r -> length r <= length s) /\
  (forall d acc fine s v fi r, pmembers fuel d acc fine s = JOk v fi r -> length r <= length s).
Proof.
  induction fuel as [|f [IHv [IHe IHm]]]; [repeat split; intros; discriminate|].
  repeat split.
  - intros d s v fi r. cbn [pvalue]. pose proof (skip_ws_length s) as Hs.
    destruct (skip_ws s) as [|c s1]; [discriminate|]. cbn [length] in Hs.
    destruct (vb c =? 123)%N.
    { destruct (max_depth <=? d)%N; [discriminate|]. pose proof (skip_ws_length s1) as Hs1.
      destruct (skip_ws s1) as [|c' s2]; [discriminate|]. cbn [length] in Hs1.
      destruct (vb c' =? 125)%N; [intros [= <- <- <-]; lia|].
      intros H. apply IHm in H. cbn [length] in H. lia. }
    destruct (vb c =? 91)%N.
    { destruct (max_depth <=? d)%N; [discriminate|]. pose proof (skip_ws_length s1) as Hs1.
      destruct (skip_ws s1) as [|c' s2]; [discriminate|]. cbn [length] in Hs1.
      destruct (vb c' =? 93)%N; [intros [= <- <- <-]; lia|].
      intros H. apply IHe in H. cbn [length] in H. lia. }
    destruct (vb c =? 34)%N.
    { destruct (pstring s1) as [[us r']|] eqn:E; [|discriminate].
      intros [= <- <- <-]. apply pstring_length in E. lia. }
    destruct (has_prefix (b "true") (c :: s1));
      [intros H; assert (Hr : r = skipn 4 (c :: s1)) by congruence;
       rewrite Hr, skipn_length; cbn [length]; lia|].
    destruct (has_prefix (b "false") (c :: s1));
      [intros H; assert (Hr : r = skipn 5 (c :: s1)) by congruence;
       rewrite Hr, skipn_length; cbn [length]; lia|].
    destruct (has_prefix (b "null") (c :: s1));
      [intros H; assert (Hr : r = skipn 4 (c :: s1)) by congruence;
       rewrite Hr, skipn_length; cbn [length]; lia|].
    destruct (pnumber (c :: s1)) as [[o r']|] eqn:E; [|discriminate].
    apply pnumber_length in E. cbn [length] in E.
    destruct o; intros [= <- <- <-]; lia.
  - intros d acc fine s v fi r. cbn [pelems].
    destruct (pvalue f d s) as [v1 fi1 r1| |] eqn:E; try discriminate.
    apply IHv in E. pose proof (skip_ws_length r1) as Hr.
    destruct (skip_ws r1) as [|c r2]; [discriminate|]. cbn [length] in Hr.
    destruct (vb c =? 44)%N; [intros H; apply IHe in H; lia|].
    destruct (vb c =? 93)%N; [intros [= <- <- <-]; lia|discriminate].
  - intros d acc fine s v fi r. cbn [pmembers]. pose proof (skip_ws_length s) as Hs.
    destruct (skip_ws s) as [|q r0]; [discriminate|]. cbn [length] in Hs.
    destruct (vb q =? 34)%N; [|discriminate].
    destruct (pstring r0) as [[us r1]|] eqn:E; [|discriminate]. apply pstring_length in E.
    pose proof (skip_ws_length r1) as Hr1.
    destruct (skip_ws r1) as [|k r2]; [discriminate|]. cbn [length] in Hr1.
    destruct (vb k =? 58)%N; [|discriminate].
    destruct (pvalue f d r2) as [v1 fi1 r3| |] eqn:E2; try discriminate. apply IHv in E2.
    pose proof (skip_ws_length r3) as Hr3. cbv zeta.
    destruct (skip_ws r3) as [|c r4]; [discriminate|]. cbn [length] in Hr3.
    destruct (vb c =? 44)%N; [intros H; apply IHm in H; lia|].
    destruct (vb c =? 125)%N; [intros [= <- <- <-]; lia|discriminate].
Qed.

Lemma parse_fuel fuel :
  (forall d s, 2 * length s < fuel -> pvalue fuel d s <> JFuel) /\
  (forall d acc fine s, 2 * length s + 1 < fuel -> pelems fuel d acc fine s <> JFuel) /\
  (forall d acc fine s, 2 * length s + 1 < fuel -> pmembers fuel d acc fine s <> JFuel).
Proof.
  induction fuel as [|f [IHv [IHe IHm]]]; [repeat split; intros; lia|].
  repeat split.
  - intros d s Hf. cbn [pvalue]. pose proof (skip_ws_length s) as Hs.
    destruct (skip_ws s) as [|c s1]; [discriminate|]. cbn [length] in Hs.
    destruct (vb c =? 123)%N.
    { destruct (max_depth <=? d)%N; [discriminate|]. pose proof (skip_ws_length s1) as Hs1.
      destruct (skip_ws s1) as [|c' s2]; [discriminate|]. cbn [length] in Hs1.
      destruct (vb c' =? 125)%N; [discriminate|]. apply IHm. cbn [length]. lia. }
    destruct (vb c =? 91)%N.
    { destruct (max_depth <=? d)%N; [discriminate|]. pose proof (skip_ws_length s1) as Hs1.
      destruct (skip_ws s1) as [|c' s2]; [discriminate|]. cbn [length] in Hs1.
      destruct (vb c' =? 93)%N; [discriminate|]. apply IHe. cbn [length]. lia. }
    destruct (vb c =? 34)%N; [destruct (pstring s1) as [[us r']|]; discriminate|].
    destruct (has_prefix (b "true") (c :: s1)); [discriminate|].
    destruct (has_prefix (b "false") (c :: s1)); [discriminate|].
    destruct (has_prefix (b "null") (c :: s1)); [discriminate|].
    destruct (pnumber (c :: s1)) as [[[x|] r']|]; discriminate.
  - intros d acc fine s Hf. cbn [pelems].
    destruct (pvalue f d s) as [v1 fi1 r1| |] eqn:E; try discriminate.
    + apply (proj1 (parse_length f)) in E. pose proof (skip_ws_length r1) as Hr.
      destruct (skip_ws r1) as [|c r2]; [discriminate|]. cbn [length] in Hr.
      destruct (vb c =? 44)%N; [apply IHe; lia|]. destruct (vb c =? 93)%N; discriminate.
    + exfalso. revert E. apply IHv. lia.
  - intros d acc fine s Hf. cbn [pmembers]. pose proof (skip_ws_length s) as Hs.
    destruct (skip_ws s) as [|q r0]; [discriminate|]. cbn [length] in Hs.
    destruct (vb q =? 34)%N; [|discriminate].
    destruct (pstring r0) as [[us r1]|] eqn:E; [|discriminate]. apply pstring_length in E.
    pose proof (skip_ws_length r1) as Hr1.
    destruct (skip_ws r1) as [|k r2]; [discriminate|]. cbn [length] in Hr1.
    destruct (vb k =? 58)%N; [|discriminate].
    destruct (pvalue f d r2) as [v1 fi1 r3| |] eqn:E2; try discriminate.
    + apply (proj1 (parse_length f)) in E2.
      pose proof (skip_ws_length r3) as Hr3. cbv zeta.
      destruct (skip_ws r3) as [|c r4]; [discriminate|]. cbn [length] in Hr3.
      destruct (vb c =? 44)%N; [apply IHm; lia|]. destruct (vb c =? 125)%N; discriminate.
    + exfalso. revert E2. apply IHv. lia.
Qed.

Lemma unmarshal_fuel s : pvalue (S (2 * length s)) 0 s <> JFuel.
Proof. apply parse_fuel. lia. Qed.

(** ** Decoded maps have unique keys *)

Fixpoint wf_json (v : json) : Prop :=
  match v with
  | JArr l => (fix go l := match l with [] => True | x :: l' => wf_json x /\ go l' end) l
  | JObj m => NoDup (map fst m) /\
      (fix go (l : list (bytes * json)) :=
         match l with [] => True | kv :: l' => wf_json (snd kv) /\ go l' end) m
  | _ => True
  end.

Lemma wf_arr l : wf_json (JArr l) <-> Forall wf_json l.
Proof.
  simpl. induction l as [|x l IH]; [split; auto|]. split.
  - intros [H1 H2]. constructor; [exact H1|]. now apply IH.
  - intros H. inversion H; subst. split; [assumption|]. now apply IH.
Qed.

Lemma wf_obj m : wf_json (JObj m) <-> NoDup (map fst m) /\ Forall (fun kv => wf_json (snd kv)) m.
Proof.
  simpl. split; intros [Hn H]; (split; [exact Hn|]); clear Hn.
  - induction m as [|x m IH]; constructor; [apply H|apply IH, H].
  - induction H as [|x m Hx H IH]; auto.
Qed.

Lemma mset_In {V} k (v : V) m kv : In kv (mset k v m) -> kv = (k, v) \/ In kv m.
Proof.
  induction m as [|[k' v'] m IH]; simpl.
  - intros [<-|[]]; auto.
  - destruct (bytes_eqb k k') eqn:E; simpl.
    + intros [<-|H]; auto.
    + intros [<-|H]; auto. apply IH in H. destruct H; auto.
Qed.

Lemma wf_mset k v m : wf_json v -> wf_json (JObj m) -> wf_json (JObj (mset k v m)).
Proof.
  rewrite !wf_obj. intros Hv [Hn Hm]. split; [now apply mset_NoDup|].
  apply Forall_forall. intros kv Hin. apply mset_In in Hin. rewrite Forall_forall in Hm.
  destruct Hin as [->|Hin]; [exact Hv|now apply Hm].
Qed.

Lemma parse_wf fuel :
  (forall d s v fi r, pvalue fuel d s = JOk v fi r -> wf_json v) /\
  (forall d acc fine s v fi r, Forall wf_json acc -> pelems fuel d acc fine s = JOk v fi r -> wf_json v) /\
  (forall d acc fine s v fi r, wf_json (JObj acc) -> pmembers fuel d acc fine s = JOk v fi r -> wf_json v).
Proof.
  induction fuel as [|f [IHv [IHe IHm]]]; [repeat split; intros; discriminate|].
  repeat split.
  - intros d s v fi r. cbn [pvalue].
    destruct (skip_ws s) as [|c s1]; [discriminate|].
    destruct (vb c =? 123)%N.
    { destruct (max_depth <=? d)%N; [discriminate|].
      destruct (skip_ws s1) as [|c' s2]; [discriminate|].
      destruct (vb c' =? 125)%N; [intros [= <- <- <-]; apply wf_obj; split; constructor|].
      intros H. apply IHm in H; [exact H|]. apply wf_obj. split; constructor. }
    destruct (vb c =? 91)%N.
    { destruct (max_depth <=? d)%N; [discriminate|].
      destruct (skip_ws s1) as [|c' s2]; [discriminate|].
      destruct (vb c' =? 93)%N; [intros [= <- <- <-]; exact I|].
      intros H. apply IHe in H; [exact H|constructor]. }
    destruct (vb c =? 34)%N.
    { destruct (pstring s1) as [[us r']|] eqn:E; [|discriminate].
      intros [= <- <- <-]. exact I. }
    destruct (has_prefix (b "true") (c :: s1)); [intros [= <- <- <-]; exact I|].
    destruct (has_prefix (b "false") (c :: s1)); [intros [= <- <- <-]; exact I|].
    destruct (has_prefix (b "null") (c :: s1)); [intros [= <- <- <-]; exact I|].
    destruct (pnumber (c :: s1)) as [[[x|] r']|]; try discriminate; intros [= <- <- <-]; exact I.
  - intros d acc fine s v fi r Hacc. cbn [pelems].
    destruct (pvalue f d s) as [v1 fi1 r1| |] eqn:E; try discriminate.
    apply IHv in E.
    destruct (skip_ws r1) as [|c r2]; [discriminate|].
    destruct (vb c =? 44)%N; [intros H; apply IHe in H; [exact H|constructor; assumption]|].
    destruct (vb c =? 93)%N; [|discriminate]. intros [= <- <- <-].
    apply wf_arr. apply Forall_app; split; [now apply Forall_rev|auto].
  - intros d acc fine s v fi r Hacc. cbn [pmembers].
    destruct (skip_ws s) as [|q r0]; [discriminate|].
    destruct (vb q =? 34)%N; [|discriminate].
    destruct (pstring r0) as [[us r1]|] eqn:E; [|discriminate].
    destruct (skip_ws r1) as [|k r2]; [discriminate|].
    destruct (vb k =? 58)%N; [|discriminate].
    destruct (pvalue f d r2) as [v1 fi1 r3| |] eqn:E2; try discriminate. apply IHv in E2.
    cbv zeta. destruct (skip_ws r3) as [|c r4]; [discriminate|].
    destruct (vb c =? 44)%N; [intros H; apply IHm in H; [exact H|now apply wf_mset]|].
    destruct (vb c =? 125)%N; [|discriminate]. intros [= <- <- <-]. now apply wf_mset.
Qed.

Lemma unmarshal_wf s v fine : unmarshal s = (Some v, fine) -> wf_json v.
Proof.
  unfold unmarshal. destruct (pvalue _ _ _) as [v' fi r| |] eqn:E; try discriminate.
  apply (proj1 (parse_wf _)) in E.
  destruct (skip_ws r); [intros [= <- <-]; exact E|discriminate].
Qed.

Lemma unmarshal_map_wf s m fine : unmarshal_map s = (Some m, fine) -> wf_json (JObj m).
Proof.
  unfold unmarshal_map. destruct (unmarshal s) as [[v|] f] eqn:E; [|discriminate].
  apply unmarshal_wf in E. destruct v; try discriminate. intros [= <- <-]. exact E.
Qed.

Lemma unmarshal_map_NoDup s m fine : unmarshal_map s = (Some m, fine) -> NoDup (map fst m).
Proof. intros H. apply unmarshal_map_wf, wf_obj in H. apply H. Qed.

Lemma unmarshal_nil : unmarshal [] = (None, false).
Proof. reflexivity. Qed.
