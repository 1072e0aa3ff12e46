(** The commands on a stored vault, from the password to the screen (C64, C81). *)
From Verif Require Import Base Utf8 Spec_Trim Spec_Numeral GoStrings GoStringsProof FieldsProof Json Civil Crypto Path Fs FsProof Domain DomainProof Repos
  Session SessionProof World WorldProof Config Updater UpdateProof
  Spec_Vault Spec_Domain VaultProof Cli CliProof CliEvents Toy ToyYaml Properties_Layout Properties_Domain Properties_Vault Properties_Session Properties_Config
  Properties_Update Properties_Check Properties_Cli Properties_Show Properties_Cli2 Spec_Release.

Local Notation newline := World.newline.

(** ** Specification *)

(** The settings exist and can be read; notifications are off, or the server gives no answer (or one that breaks off). *)
Definition quiet_process (Y : yaml) (dir : bytes) (w : world) (m : cmap) : Prop :=
  load_config Y (w_disk w) dir = Ok m /\ exists cfg, get_config m = Ok cfg /\
  (cfg_notify cfg = false \/ is_available m = true /\ forall body, ~ answer w 0 body).

(** The user's vault is stored on the disk and they type its password. *)
Definition user_opens (C : crypto) (U : unicode) (tz : Z -> Z) (w : world) (path : bytes) (items : list item) : Prop :=
  exists password ks rest, w_pass w = password :: rest /\ vault_at C U tz (w_disk w) path password ks items.

(** The category a text asks for. *)
Definition asks_for (U : unicode) (text : bytes) (cat : option category) : Prop :=
  match cat with
  | None => text = []
  | Some c => text <> [] /\ In (cat_code c, cat_name c) published /\
      exists name, trimmed text name /\ to_lower U name = to_lower U (cat_name c)
  end.

(** The table of the rows, numbered from 1. *)
Definition is_table (rows : list simple_item) (t : list (list bytes)) : Prop := exists numbers,
  length numbers = length rows /\
  (forall k number, nth_error numbers k = Some number -> usual_numeral number (N.of_nat (S k))) /\
  t = [b "lp."; b "uid"; b "category"; b "title"] ::
      map (fun nr => [fst nr; s_uid (snd nr); cat_name (s_cat (snd nr)); s_title (snd nr)]) (combine numbers rows).

(** ** Lemmas *)

Lemma number_rows_spec {A} (f : A -> list bytes) rows : forall n,
  number_rows n (map f rows) = map (fun nr => itoa (Z.of_nat (fst nr)) :: f (snd nr)) (combine (seq n (length rows)) rows).
Proof. induction rows as [|r rows IH]; intros n; [reflexivity|]. cbn [map number_rows length seq combine fst snd]. now rewrite IH. Qed.

Lemma number_rows_table rows : is_table rows
  ([b "lp."; b "uid"; b "category"; b "title"] :: number_rows 1 (map (fun i => [s_uid i; cat_name (s_cat i); s_title i]) rows)).
Proof.
  exists (map (fun n => itoa (Z.of_nat n)) (seq 1 (length rows))). split; [now rewrite map_length, seq_length|]. split.
  - intros k number H. rewrite nth_error_map in H. destruct (nth_error (seq 1 (length rows)) k) as [n|] eqn:E; [|discriminate H].
    injection H as <-. assert (Hk : k < length (seq 1 (length rows))) by (apply nth_error_Some; congruence). rewrite seq_length in Hk.
    apply (nth_error_nth _ _ 0) in E. rewrite seq_nth in E by exact Hk. subst n. apply usual_itoa.
  - f_equal. rewrite number_rows_spec. generalize 1. induction rows as [|r rows IH]; intros n; [reflexivity|].
    cbn [length seq map combine fst snd]. f_equal. apply IH.
Qed.

(** The check without an answer does nothing that can be seen. *)
Lemma quiet_fetch w : (forall body, ~ answer w 0 body) -> exists e, snd (fetch_info w) = Ok (Err e).
Proof.
  intros H. unfold answer in H. unfold fetch_info, bind, http_get. change github_releases with releases_url.
  assert (E : exists c u, releases_url = c :: u) by (eexists; eexists; reflexivity). destruct E as (c & u & ->).
  destruct (w_net w) as [|[|body [|]] rest]; try (eexists; reflexivity). now elim (H body).
Qed.

Lemma quiet_cli_check dir w m v cfg : get_config m = Ok cfg -> (cfg_notify cfg = false \/ is_available m = true /\ forall body, ~ answer w 0 body) ->
  is_available m = true /\ exists w1, cli_check dir (MkApp w m v) = (MkApp w1 m v, Ok tt) /\ w_disk w1 = w_disk w /\ screen w1 = screen w /\ w_pass w1 = w_pass w.
Proof.
  intros Hg [Hn|[Ha Hno]].
  { split; [exact (not_available_notify _ _ Hg Hn)|]. exists w. split; [exact (silent_check dir (MkApp w m v) cfg Hg Hn)|auto]. }
  split; [exact Ha|]. destruct (cfg_notify cfg) eqn:Hn.
  2: { exists w. split; [exact (silent_check dir (MkApp w m v) cfg Hg Hn)|auto]. }
  rewrite (cli_check_on dir (MkApp w m v) cfg Hg Hn), check_eq, should_check_eq. set (bb := orb _ _). cbn [a_world a_conf a_vault].
  destruct (rest_clock_same w) as (R1 & R2 & R3).
  assert (R4 : w_pass (rest_clock w) = w_pass w) by (unfold rest_clock; destruct (w_clock w); reflexivity).
  destruct bb; [|exists (rest_clock w); unfold screen; rewrite R1; auto].
  assert (Hno' : forall body, ~ answer (rest_clock w) 0 body) by (intros body; unfold answer; rewrite R3; apply Hno).
  destruct (quiet_fetch _ Hno') as (e & Ef). destruct (fetch_asks (rest_clock w)) as (F1 & F2 & _).
  assert (F3 : w_pass (fst (fetch_info (rest_clock w))) = w_pass (rest_clock w)).
  { unfold fetch_info, bind, http_get. destruct github_releases; [reflexivity|]. destruct (w_net (rest_clock w)) as [|[|body [|]] rest]; reflexivity. }
  unfold do_check, bind at 1. destruct (fetch_info (rest_clock w)) as [w1 x]. cbn [fst snd] in *. subst x. cbn [ret].
  exists w1. split; [reflexivity|]. split; [congruence|]. split; [|congruence]. unfold screen. rewrite F1, R1. cbn [flat_map rev]. 
  rewrite ?app_nil_r. reflexivity.
Qed.

(** The run of a command with the vault open. *)
Lemma quiet_open C U (HC : crypto_ok C) (HU : unicode_ok U) tz O Y T render dir c v w m items :
  oracles_ok O -> flag_of c = Some v -> quiet_process Y dir w m ->
  user_opens C U tz w (vault_in_use v m) items ->
  exists s D path password,
    run C U tz (opening O D path password) init = Ok (s, [RError None; RError None]) /\
    (exists ks, vault_at C U tz D path password ks items) /\
    forall w' r, process C U tz O Y T render dir c w = (w', r) -> exists a,
      a_world (fst (finish U tz O render c a)) = w' /\ snd (finish U tz O render c a) = r /\
      a_vault a = s /\ screen (a_world a) = screen w ++ [b "Password:" ++ newline] /\ w_disk (a_world a) = w_disk w.
Proof.
  intros HO Hf [Hl (cfg & Hg & Hn)] (password & ks & rest & Hp & Hv).
  destruct (VaultProof.open_vault C HC U HU tz O _ _ _ _ _ init HO Hv) as (p & l' & H1 & H2 & _); try reflexivity.
  cbv zeta in H1, H2. set (s1 := MkState (Some p) None (st_keys init) (st_reg init)) in *.
  set (s2 := MkState (Some p) (Some l') (Some ks) (st_reg init)) in *.
  exists s2, (w_disk w), (vault_in_use v m), password. split; [apply opening_run; eauto|]. split; [eauto|].
  intros w' r H. rewrite process_run, Hl in H. rewrite vault_in_use_path in H1, H2, Hv.
  destruct (quiet_cli_check dir w m init cfg Hg Hn) as (Ha & w0 & Hck & D0 & S0 & P0).
  set (w1 := after_ask (add_event (EOut (b "Password:" ++ newline)) w0)). exists (MkApp w1 m s2).
  assert (Ht : typed_pass w0 = password) by (unfold typed_pass; now rewrite P0, Hp).
  assert (R : run_command C U tz O Y T render dir c (MkApp w m init) = finish U tz O render c (MkApp w1 m s2)).
  { rewrite (run_prepared _ _ _ _ _ _ _ _ _ v _ Hf).
    unfold prepare, bind at 1, first_run, bind at 1, the_conf. cbn [a_conf]. rewrite Ha. unfold ret at 1.
    rewrite Hck, choose_eq. cbn [snd a_conf].
    assert (G : (enter C U tz O (vault_path v m) ;;; finish U tz O render c)%st (MkApp w0 m init) = finish U tz O render c (MkApp w1 m s2)).
    { unfold bind. rewrite enter_eq. cbn [a_world a_conf a_vault]. rewrite D0, H1. cbv zeta. rewrite Ht. rewrite H2. reflexivity. }
    destruct v; [rewrite Hg|]; exact G. }
  rewrite R in H. split; [congruence|]. split; [congruence|]. split; [reflexivity|]. split.
  - cbn [a_world]. unfold w1. rewrite <- S0, <- screen_event. unfold after_ask, ask_password. cbn [w_pass add_event]. destruct (w_pass w0); reflexivity.
  - cbn [a_world]. unfold w1, after_ask, ask_password. cbn [w_pass add_event]. destruct (w_pass w0); exact D0.
Qed.

Lemma quiet_items C U (HC : crypto_ok C) (HU : unicode_ok U) tz O D path password ks items s :
  oracles_ok O -> vault_at C U tz D path password ks items ->
  run C U tz (opening O D path password) init = Ok (s, [RError None; RError None]) ->
  reachable C U tz s /\ (forall i, held s i <-> In i items).
Proof.
  intros HO Hv Hr. split; [exact (opening_reachable C U tz O D path password s _ HO Hr)|].
  destruct (C24_listing_of_vault C U HC HU tz O D path password ks items HO Hv) as (s' & Hr' & Hh & _).
  assert (s' = s) by congruence. now subst.
Qed.

(** ** C81 *)

(** list shows exactly the items of the vault that match, sorted, as a table with a line for each. *)
Theorem C81_list_shows_matches : forall C U, crypto_ok C -> unicode_ok U ->
  forall tz O Y T render dir v w w' r m items text title trashed cat given_cat given,
  oracles_ok O -> quiet_process Y dir w m -> user_opens C U tz w (vault_in_use v m) items -> asks_for U text cat ->
  trimmed text given_cat -> trimmed title given ->
  process C U tz O Y T render dir (CmdList v text title trashed) w = (w', r) ->
  exists rows,
    (forall row, In row rows <-> exists i, In i items /\ answers U cat given trashed i /\ row = row_of i) /\
    NoDup (map s_uid rows) /\ StronglySorted row_before rows /\
    r = Ok tt /\ w_disk w' = w_disk w /\
    (rows <> [] -> exists t, is_table rows t /\ screen w' = screen w ++ [b "Password:" ++ newline; render t ++ newline]) /\
    (rows = [] -> screen w' = screen w ++ [b "Password:" ++ newline; b "No results for search (category: " ++ given_cat
       ++ b ", name: " ++ given ++ b ", trashed: " ++ (if trashed then b "true" else b "false") ++ b ")" ++ newline]).
Proof.
  intros C U HC HU tz O Y T render dir v w w' r m items text title trashed cat given_cat given HO Hq Hu Ha Hgc Hg H. apply trimmed_eq in Hgc, Hg. subst given_cat given.
  destruct (quiet_open C U HC HU tz O Y T render dir (CmdList v text title trashed) v w m items HO eq_refl Hq Hu)
    as (s & D & path & password & Hr & (ks & Hv) & Hrun).
  destruct (Hrun w' r H) as (a & Hf & Hfr & Hs & Hsc & Hd). clear Hrun H.
  destruct (quiet_items C U HC HU tz O D path password ks items s HO Hv Hr) as [Hreach Hheld].
  exists (get_items U O cat (trim_space title) trashed s).
  destruct (C24_listing_exact C U tz O s cat (trim_space title) trashed HO Hreach) as [E1 E2].
  assert (Hw : wanted U s text = Val cat).
  { unfold asks_for in Ha. unfold wanted. destruct cat as [c|]; [|now rewrite Ha].
    destruct Ha as (Ht & Hc & u & Hu' & Hl). apply trimmed_eq in Hu'. subst u. destruct text as [|x y]; [congruence|].
    assert (Hreg := inv_reg _ (reachable_inv C U tz s Hreach)).
    now rewrite (proj2 (proj1 (C02_category_by_name U (st_reg s) Hreg) (trim_space (x :: y)) c) (conj Hc Hl)). }
  split; [|split; [exact E2|split; [now apply C25_listing_sorted|]]].
  - intros row. rewrite (E1 row). split; intros (i & X & X'); exists i; (split; [now apply Hheld|exact X']).
  - rewrite finish_list, Hs, Hw in Hf, Hfr. cbn [fst snd a_world a_conf a_vault] in Hf, Hfr. symmetry in Hfr.
    split; [exact Hfr|]. set (rows := get_items U O cat (trim_space title) trashed s) in *.
    assert (Hout : forall t, w' = add_event (EOut t) (a_world a) -> screen w' = screen w ++ [b "Password:" ++ newline; t]).
    { intros t ->. rewrite screen_event, Hsc, <- app_assoc. reflexivity. }
    assert (Hww := eq_sym Hf). clear Hf.
    split; [rewrite Hww; exact Hd|]. split.
    + intros Hne. eexists. split; [apply number_rows_table|]. apply Hout. rewrite Hww. destruct rows; [congruence|reflexivity].
    + intros He. rewrite He in Hww. rewrite (Hout _ Hww). rewrite <- !app_assoc. destruct text, trashed; reflexivity.
Qed.
Print Assumptions C81_list_shows_matches.

(** The vault of the examples on the disk of the examples. *)
Lemma vault_same part C U tz D D' path password ks items :
  vault_with part C U tz D path password ks items ->
  (forall L, resolve D path = Some L -> resolve D' path = Some L /\
     forall k, (k = L \/ k = b "default" :: L \/ exists n, k = in_default n L) ->
       fs_get (d_fs D') k = fs_get (d_fs D) k /\ d_unreadable D' k = d_unreadable D k) ->
  vault_with part C U tz D' path password ks items.
Proof.
  intros [(L & p & bands & Hv & Hp & (t & Ht & Hpf & Hpu) & Hprof & [B1 B2 B3] & Hi)] H.
  destruct (H L (vd_path _ _ _ Hv)) as [Hr Hk].
  assert (Hn : forall n, fs_get (d_fs D') (in_default n L) = fs_get (d_fs D) (in_default n L) /\
    d_unreadable D' (in_default n L) = d_unreadable D (in_default n L)) by (intros n; apply Hk; eauto).
  constructor. exists L, p, bands. split; [constructor|split; [exact Hp|split; [|split; [exact Hprof|split; [constructor|exact Hi]]]]].
  - exact Hr.
  - rewrite (proj1 (Hk L (or_introl eq_refl))). apply Hv.
  - rewrite (proj1 (Hk _ (or_intror (or_introl eq_refl)))). apply Hv.
  - rewrite (proj2 (Hk _ (or_intror (or_introl eq_refl)))). apply Hv.
  - exists t. split; [exact Ht|]. split; [now rewrite (proj1 (Hn _))|now rewrite (proj2 (Hn _))].
  - exact B1.
  - intros n. rewrite B2, (proj1 (Hn n)). reflexivity.
  - eapply Forall_impl; [|exact B3]. intros [n ms] (c & [F1 F2] & F3). exists c. split; [|exact F3].
    split; [now rewrite (proj1 (Hn _))|now rewrite (proj2 (Hn _))].
Qed.

Lemma demo_at v pass : vault_at toy_crypto latin1 utc (w_disk (vault_world v pass)) (b "/v") (b "freddy") demo_keys demo_items.
Proof.
  apply (vault_same _ _ _ _ demo_disk); [exact demo_vault|].
  intros L HL. vm_compute in HL. assert (L = [b "v"]) by (vm_compute; congruence). subst L. split; [vm_compute; reflexivity|].
  intros k Hk. split; [|reflexivity]. cbn [vault_world w_disk d_fs].
  assert (Hc : k <> [b "c"] /\ k <> [config_file; b "c"]).
  { destruct Hk as [->|[->|[n ->]]]; split; discriminate. }
  assert (Hnil : k <> []) by (destruct Hk as [->|[->|[n ->]]]; discriminate).
  destruct k as [|x k]; [congruence|]. unfold fs_get. cbn [find fst].
  destruct Hc as [H1 H2]. apply not_eq_sym in H1, H2. apply loc_eqb_neq in H1, H2. rewrite H1, H2. reflexivity.
Qed.

Lemma demo_opens v rest : user_opens toy_crypto latin1 utc (vault_world v (b "freddy" :: rest)) (b "/v") demo_items.
Proof. exists (b "freddy"), demo_keys, rest. split; [reflexivity|]. apply demo_at. Qed.

Example C81_example :
  quiet_process toy_yaml (b "/c") (vault_world (b "/v") [b "freddy"]) (Some (off_settings (b "/v"))) /\
  user_opens toy_crypto latin1 utc (vault_world (b "/v") [b "freddy"]) (vault_in_use [] (Some (off_settings (b "/v")))) demo_items /\
  asks_for latin1 (b " LOGIN ") (Some (Cat (b "001") (b "Login"))) /\
  let r := demo_process (b "/c") (CmdList [] (b " LOGIN ") (b "M") false) (vault_world (b "/v") [b "freddy"]) in
  screen (fst r) = [b "Password:" ++ newline; b "lp.uidcategorytitle1AALoginMail" ++ newline].
Proof.
  split; [|split; [|split]].
  - split; [vm_compute; reflexivity|]. eexists. split; [|left]; vm_compute; reflexivity.
  - apply demo_opens.
  - split; [discriminate|]. split; [cbn; auto|]. exists (trim_space (b " LOGIN ")). split; [apply trim_space_trimmed|vm_compute; reflexivity].
  - vm_compute. reflexivity.
Qed.

(** The same with notifications on, a check that is due, and a server that cannot be reached. *)
Example C81_offline_example :
  let w := on_world1 [1641124800000000000; 1641124800000000001]%Z [NetErr] in
  quiet_process toy_yaml (b "/c") w (Some on_settings) /\
  user_opens toy_crypto latin1 utc w (vault_in_use [] (Some on_settings)) demo_items /\
  (exists cfg, get_config (Some on_settings) = Ok cfg /\ cfg_notify cfg = true) /\
  let r := demo_process (b "/c") (CmdList [] (b " LOGIN ") (b "M") false) w in
  snd r = Ok tt /\ w_trace (fst r) =
    [EOut (b "lp.uidcategorytitle1AALoginMail" ++ newline); EAsk; EOut (b "Password:" ++ newline); EGet releases_url].
Proof.
  cbn zeta. split; [|split; [|split; [|split]]].
  - split; [vm_compute; reflexivity|]. eexists. split; [vm_compute; reflexivity|]. right. split; [reflexivity|]. intros body H. discriminate H.
  - exists (b "freddy"), demo_keys, []. split; [reflexivity|].
    apply (vault_same _ _ _ _ demo_disk); [exact demo_vault|].
    intros L HL. vm_compute in HL. assert (L = [b "v"]) by (vm_compute; congruence). subst L. split; [vm_compute; reflexivity|].
    intros k Hk. split; [|reflexivity]. unfold on_world1. cbn [w_disk d_fs].
    assert (Hc : k <> [b "c"] /\ k <> [config_file; b "c"] /\ k <> [last_check_file; b "c"]).
    { destruct Hk as [->|[->|[n ->]]]; repeat split; discriminate. }
    assert (Hnil : k <> []) by (destruct Hk as [->|[->|[n ->]]]; discriminate).
    destruct k as [|x k]; [congruence|]. unfold fs_get. cbn [find fst].
    destruct Hc as (H1 & H2 & H3). apply not_eq_sym in H1, H2, H3. apply loc_eqb_neq in H1, H2, H3. change last_check_file with (b "lastcheck") in H3. rewrite H1, H2, H3. reflexivity.
  - eexists. split; vm_compute; reflexivity.
  - vm_compute. reflexivity.
  - vm_compute. reflexivity.
Qed.

(** An unknown category is reported, nothing is listed. *)
Theorem C81_unknown_category : forall C U, crypto_ok C -> unicode_ok U ->
  forall tz O Y T render dir v w w' r m items text title trashed name,
  oracles_ok O -> quiet_process Y dir w m -> user_opens C U tz w (vault_in_use v m) items ->
  text <> [] -> trimmed text name ->
  (forall code known, In (code, known) published -> to_lower U name <> to_lower U known) ->
  process C U tz O Y T render dir (CmdList v text title trashed) w = (w', r) ->
  r = Exit 1 /\ screen w' = screen w ++ [b "Password:" ++ newline; b "unknown item category" ++ newline].
Proof.
  intros C U HC HU tz O Y T render dir v w w' r m items text title trashed name HO Hq Hu Ht Hname Hno H. apply trimmed_eq in Hname. subst name.
  destruct (quiet_open C U HC HU tz O Y T render dir (CmdList v text title trashed) v w m items HO eq_refl Hq Hu)
    as (s & D & path & password & Hr & (ks & Hv) & Hrun).
  destruct (Hrun w' r H) as (a & Hf & Hfr & Hs & Hsc & Hd). clear Hrun H.
  destruct (quiet_items C U HC HU tz O D path password ks items s HO Hv Hr) as [Hreach Hheld].
  assert (Hw : wanted U s text = Err ErrUnknownItemCat).
  { unfold wanted. destruct text as [|x y]; [congruence|].
    assert (Hreg := inv_reg _ (reachable_inv C U tz s Hreach)).
    now rewrite (proj1 (proj2 (C02_category_by_name U (st_reg s) Hreg)) (trim_space (x :: y)) Hno). }
  rewrite finish_list, Hs, Hw in Hf, Hfr. cbn [fst snd a_world a_conf a_vault] in Hf, Hfr. split; [congruence|].
  rewrite <- Hf, screen_event, Hsc, <- app_assoc. reflexivity.
Qed.
Print Assumptions C81_unknown_category.

Example C81_unknown_example : trimmed (b " Logins") (b "Logins") /\
  (forall code name, In (code, name) published -> to_lower latin1 (b "Logins") <> to_lower latin1 name) /\
  snd (demo_process (b "/c") (CmdList [] (b " Logins") [] false) (vault_world (b "/v") [b "freddy"])) = Exit 1.
Proof.
  split; [apply trimmed_iff; vm_compute; reflexivity|]. split; [|vm_compute; reflexivity].
  intros code name H. assert (G : forallb (fun cn => negb (bytes_eqb (to_lower latin1 (b "Logins")) (to_lower latin1 (snd cn)))) published = true)
    by (vm_compute; reflexivity).
  rewrite forallb_forall in G. specialize (G _ H). cbn [snd] in G. apply negb_true_iff, bytes_eqb_neq in G. exact G.
Qed.

(** ** C64 *)

(** On a stored vault: details shows the stored item with the uid, and nothing else. *)
Theorem C64_details_of_stored_item : forall C U, crypto_ok C -> unicode_ok U ->
  forall tz O Y T render dir v w w' r m items i,
  oracles_ok O -> quiet_process Y dir w m -> user_opens C U tz w (vault_in_use v m) items -> In i items ->
  process C U tz O Y T render dir (CmdDetails v (it_uid i) (it_trashed i)) w = (w', r) ->
  r = Ok tt /\ w_disk w' = w_disk w /\
  exists head tail, screen w' = screen w ++ (b "Password:" ++ newline) ::
      map (fun l => l ++ newline) (head ++ flat_map section_lines (it_sections i) ++ tail) /\
    In (it_title i) head /\ In (cat_name (it_cat i)) head /\
    (it_url i <> [] -> In (b "URL: " ++ it_url i) head) /\
    (it_notes i <> [] -> exists x y, tail = x ++ b "Notes" :: b "------------------------------" :: it_notes i :: y).
Proof.
  intros C U HC HU tz O Y T render dir v w w' r m items i HO Hq Hu Hin H.
  destruct (quiet_open C U HC HU tz O Y T render dir (CmdDetails v (it_uid i) (it_trashed i)) v w m items HO eq_refl Hq Hu)
    as (s & D & path & password & Hr & (ks & Hv) & Hrun).
  destruct (Hrun w' r H) as (a & Hf & Hfr & Hs & Hsc & Hd). clear Hrun H.
  destruct (quiet_items C U HC HU tz O D path password ks items s HO Hv Hr) as [Hreach Hheld].
  assert (Hi : get_item (it_uid i) (it_trashed i) s = Some i) by (apply Hheld; exact Hin).
  cbn [finish] in Hf, Hfr. rewrite finish_item, Hs, Hi in Hf, Hfr. cbn [fst snd a_world] in Hf, Hfr.
  split; [congruence|]. split.
  - rewrite <- Hf, <- Hd. generalize (item_lines tz false i). intros ls. generalize (a_world a).
    induction ls as [|l ls IH]; intros w0; [reflexivity|]. cbn [fold_left]. now rewrite IH.
  - destruct (details_lines tz i) as (head & tail & E & Hrest). exists head, tail. split; [|exact Hrest].
    rewrite <- Hf, screen_lines, Hsc, <- app_assoc, E. reflexivity.
Qed.
Print Assumptions C64_details_of_stored_item.

Example C64_stored_example :
  quiet_process toy_yaml (b "/c") (vault_world (b "/v") [b "freddy"]) (Some (off_settings (b "/v"))) /\
  user_opens toy_crypto latin1 utc (vault_world (b "/v") [b "freddy"]) (b "/v") demo_items /\
  (exists i, In i demo_items /\ it_uid i = b "AA" /\ it_notes i = b "hi").
Proof.
  split; [apply C81_example|]. split; [apply demo_opens|]. eexists. split; [now left|]. split; reflexivity.
Qed.

(** ** C63 *)

(** On stored vaults: for items that differ in their secrets only, overview shows the same. *)
Theorem C63_overview_of_stored_items : forall C U, crypto_ok C -> unicode_ok U ->
  forall tz O Y T render dir v w1 w2 m1 m2 items1 items2 i1 i2,
  oracles_ok O ->
  quiet_process Y dir w1 m1 -> user_opens C U tz w1 (vault_in_use v m1) items1 -> In i1 items1 ->
  quiet_process Y dir w2 m2 -> user_opens C U tz w2 (vault_in_use v m2) items2 -> In i2 items2 ->
  alike i1 i2 -> screen w1 = screen w2 ->
  screen (fst (process C U tz O Y T render dir (CmdOverview v (it_uid i1) (it_trashed i1)) w1)) =
  screen (fst (process C U tz O Y T render dir (CmdOverview v (it_uid i1) (it_trashed i1)) w2)).
Proof.
  intros C U HC HU tz O Y T render dir v w1 w2 m1 m2 items1 items2 i1 i2 HO Hq1 Hu1 Hi1 Hq2 Hu2 Hi2 Ha Hsc.
  assert (G : forall w m items i, quiet_process Y dir w m -> user_opens C U tz w (vault_in_use v m) items -> In i items ->
    screen (fst (process C U tz O Y T render dir (CmdOverview v (it_uid i) (it_trashed i)) w)) =
    (screen w ++ [b "Password:" ++ newline]) ++ map (fun l => l ++ newline) (item_lines tz true i)).
  { intros w m items i Hq Hu Hin. destruct (process C U tz O Y T render dir (CmdOverview v (it_uid i) (it_trashed i)) w) as [w' r] eqn:H.
    destruct (quiet_open C U HC HU tz O Y T render dir (CmdOverview v (it_uid i) (it_trashed i)) v w m items HO eq_refl Hq Hu)
      as (s & D & path & password & Hr & (ks & Hv) & Hrun).
    destruct (Hrun w' r H) as (a & Hf & Hfr & Hs & Hs2 & Hd). clear Hrun H.
    destruct (quiet_items C U HC HU tz O D path password ks items s HO Hv Hr) as [Hreach Hheld].
    assert (Hi : get_item (it_uid i) (it_trashed i) s = Some i) by (apply Hheld; exact Hin).
    cbn [finish] in Hf. rewrite finish_item, Hs, Hi in Hf. cbn [fst snd a_world] in Hf |- *.
    rewrite <- Hf, screen_lines, Hs2. reflexivity. }
  rewrite (G _ _ _ _ Hq1 Hu1 Hi1). assert (A := Ha). destruct A as (_ & _ & _ & Et & Eu & _). rewrite Et, Eu.
  rewrite (G _ _ _ _ Hq2 Hu2 Hi2), Hsc, (alike_lines tz _ _ Ha). reflexivity.
Qed.
Print Assumptions C63_overview_of_stored_items.
