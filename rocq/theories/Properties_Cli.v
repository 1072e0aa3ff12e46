(** Properties of the command line (C55, C61, C63-C67, C78-C82).  Libraries, disks, networks, clocks,
    answers and passwords are arbitrary. *)
From Verif Require Import Base Utf8 GoStrings GoStringsProof Json Civil Crypto Path Fs FsProof Domain DomainProof Repos
  Session World WorldProof Config Updater UpdateProof Cli CliProof CliEvents
  Spec_Vault Toy ToyYaml Properties_Layout Properties_Config Properties_Update Properties_Check.

(** ** Specification *)

(** Between two moments of a process the event [e] happened. *)
Definition happened (w w' : world) (e : ev) : Prop := exists t, w_trace w' = t ++ w_trace w /\ In e t.

(** The texts written to the screen, first to last. *)
Definition screen (w : world) : list bytes :=
  rev (flat_map (fun e => match e with EOut t => [t] | _ => [] end) (w_trace w)).

(** Every file system from [w] on to [w']. *)
Definition ever (w w' : world) (P : fs -> Prop) : Prop :=
  P (w_fs w') /\ forall f, happened w w' (EFs f) -> P f.

(** Nothing differs between two file systems but these places and that missing directories
    may have been made. *)
Definition same_but (places : list loc) (f f' : fs) : Prop := forall k, ~ In k places ->
  fs_get f' k = fs_get f k \/ (fs_get f k = None /\ fs_get f' k = Some NDir).

(** The program's own files in its directory [dir]. *)
Definition settings_place (w : world) (dir : bytes) : loc := place (d_cwd (w_disk w)) (join_path [dir; b "1pass.yml"]).
Definition last_check_place (w : world) (dir : bytes) : loc := place (d_cwd (w_disk w)) (check_file dir).

(** The word typed at a question. *)
Definition typed_word (w : world) : bytes := fst (scanln (w_stdin w)).

(** ** Lemmas *)

Lemma happened_in w w' t e : w_trace w' = t ++ w_trace w -> happened w w' e -> In e t.
Proof. intros H (t' & H' & Hi). rewrite H in H'. apply app_inv_tail in H'. now subst. Qed.

Lemma does_happened (P : ev -> Prop) {A} (m : act A) a e : does P m ->
  happened (a_world a) (a_world (fst (m a))) e -> P e.
Proof.
  intros H Hh. destruct (H a) as (t & E & Ht). apply (happened_in _ _ _ _ E) in Hh.
  rewrite Forall_forall in Ht. now apply Ht.
Qed.

Lemma process_run C U tz O Y T render dir c w :
  process C U tz O Y T render dir c w =
  match load_config Y (w_disk w) dir with
  | Ok m => (a_world (fst (run_command C U tz O Y T render dir c (MkApp w m init))),
             snd (run_command C U tz O Y T render dir c (MkApp w m init)))
  | Panic => (w, Panic)
  | Exit n => (w, Exit n)
  end.
Proof.
  unfold process. destruct (load_config Y (w_disk w) dir) as [m| |n]; [|reflexivity|reflexivity].
  now destruct (run_command C U tz O Y T render dir c (MkApp w m init)).
Qed.

Lemma happened_same w e : ~ happened w w e.
Proof. intros H. apply (happened_in w w [] e) in H; [exact H|reflexivity]. Qed.

Lemma since_ever w w' (I : fs -> Prop) : since (w_trace w) (env w) I w' -> ever w w' I.
Proof.
  intros (_ & H & t & Ht & Hf). split; [exact H|]. intros f Hh. apply (happened_in _ _ _ _ Ht) in Hh.
  rewrite Forall_forall in Hf. apply Hf. unfold states. apply in_flat_map. exists (EFs f). split; [exact Hh|now left].
Qed.

Section Same.
Variable w : world.
Variable dir : bytes.
Hypothesis Hdir : dir <> [].

Lemma same_start ps : same_but ps (w_fs w) (w_fs w).
Proof. intros k _. now left. Qed.

Lemma same_dir ps l f : same_but ps (w_fs w) f -> fs_get f l = None -> same_but ps (w_fs w) (fs_set l NDir f).
Proof.
  intros H Hg k Hk. destruct (loc_eqb k l) eqn:E.
  - apply loc_eqb_eq in E. subst k. destruct (H l Hk) as [Hx|[_ Hx]]; [|congruence].
    right. split; [congruence|]. apply fs_get_set_same. intros ->. discriminate Hg.
  - apply loc_eqb_neq in E. rewrite fs_get_set_other by exact E. exact (H k Hk).
Qed.

Lemma same_set ps l n f : In l ps -> same_but ps (w_fs w) f -> same_but ps (w_fs w) (fs_set l n f).
Proof.
  intros Hl H k Hk. rewrite fs_get_set_other; [exact (H k Hk)|]. intros ->. contradiction.
Qed.
End Same.

(** ** C55 *)

Lemma lv_val U s v : unicode_ok U -> lv_from_name U s = Val v -> lv_value v = true -> In s [b "y"; b "Y"].
Proof.
  intros HU H Hv. assert (v = lv_yes).
  { unfold lv_from_name in H. destruct (find _ lv_values) as [v'|] eqn:Ef; [|discriminate].
    apply find_some in Ef. assert (v' = v) by congruence. subst v'. destruct Ef as [[<-|[<-|[]]] _]; [discriminate|reflexivity]. }
  subst v. apply (lv_from_name_spec U s HU) in H. cbn. intuition.
Qed.

Lemma fetch_net w w2 : w_net w2 = w_net w -> snd (fetch_info w2) = snd (fetch_info w).
Proof.
  intros H. unfold fetch_info, bind, http_get. change github_releases with releases_url.
  assert (E : exists c u, releases_url = c :: u) by (eexists; eexists; reflexivity). destruct E as (c & u & ->).
  rewrite H. destruct (w_net w) as [|[|body [|]] rest]; reflexivity.
Qed.

(** Unless the server offers a newer release and the user answers y or Y, the update command does
    not begin to update: it exits with 1 (or crashes on unreadable settings or an odd answer of the server,
    see C49 and C58), requests nothing but the list of releases, and changes no file but the
    time of the last check. *)
Lemma no_update : forall C U tz O Y T render dir w w' r,
  unicode_ok U -> dir <> [] ->
  process C U tz O Y T render dir CmdUpdate w = (w', r) ->
  ~ In (typed_word w) [b "y"; b "Y"] \/
  ~ (exists info, snd (fetch_info w) = Ok (Val (Some info)) /\ ui_newer info = true) ->
  (r = Exit 1 \/ r = Panic) /\
  (forall u, happened w w' (EGet u) -> u = releases_url) /\
  (forall n, ~ happened w w' (EStage n)) /\
  ever w w' (same_but [last_check_place w dir] (w_fs w)).
Proof.
  intros C U tz O Y T render dir w w' r HU Hdir H Hno. rewrite process_run in H.
  destruct (load_config Y (w_disk w) dir) as [m| |n] eqn:El.
  2,3: assert (w' = w) by congruence; subst w'; split; [|split; [|split]].
  all: try (intros x Hx; now apply happened_same in Hx).
  all: try (split; [apply same_start|intros f Hx; now apply happened_same in Hx]).
  2: right; congruence.
  2: { left. assert (n = 1); [|congruence]. unfold load_config, fatal in El.
       destruct (stat _ _); [|discriminate]. destruct (read_file _ _) as [s|]; [|congruence]. destruct (y_parse Y s); congruence. }
  cbn [run_command] in H.
  assert (Hw' : w' = a_world (fst (run_update C U T dir (MkApp w m init)))) by congruence.
  assert (Hr : r = snd (run_update C U T dir (MkApp w m init))) by congruence. clear H El.
  set (P := fun e => match e with EGet u => u = releases_url | EStage _ => False | _ => True end).
  set (J := since (w_trace w) (env w) (same_but [last_check_place w dir] (w_fs w))).
  assert (Hc : forall z, emits P (check_for_update z true dir) /\ keeps J (check_for_update z true dir)).
  { intros z. split; [apply emits_check; intros; try exact Logic.I; try reflexivity|].
    apply (keeps_check (w_trace w) (env w) (same_but [last_check_place w dir] (w_fs w)) dir).
    - intros xs ys f _ Hf Hg. apply same_dir; assumption.
    - intros f c m0 Hf. apply same_set; [now left|exact Hf]. }
  set (Q := fun p : app * res unit => (snd p = Exit 1 \/ snd p = Panic) /\
    (exists t, w_trace (a_world (fst p)) = t ++ w_trace w /\ Forall P t) /\ J (a_world (fst p))).
  assert (G : Q (run_update C U T dir (MkApp w m init))).
  { clear Hw' Hr. unfold run_update. unfold bind at 1, say, on_world at 1, println, print. cbn [a_world a_conf a_vault].
    set (w1 := add_event _ w). unfold bind at 1, the_conf. cbn [a_conf].
    unfold bind at 1, on_world at 1, facade_check, bind at 1, lift. cbn [a_world].
    assert (J1 : J w1) by (apply always_event; [exact Logic.I|]; apply since_start; [reflexivity|apply same_start]).
    assert (T1 : exists t, w_trace w1 = t ++ w_trace w /\ Forall P t).
    { eexists [_]. split; [reflexivity|repeat constructor]. }
    destruct (get_config m) as [c| |n] eqn:Egc; cbn [fst snd a_world].
    2: split; [now right|auto].
    2: exfalso; unfold get_config, get_notify, get_period, get_timeout in Egc;
       destruct (cget k_notify m) as [[| | | |]|], (cget k_period m) as [[| | | |]|], (cget k_timeout m) as [[| | | |]|]; discriminate.
    destruct (Hc (cfg_period c)) as [He Hk]. specialize (He w1). specialize (Hk w1 J1).
    assert (Hres := noexit_check (cfg_period c) true dir w1).
    assert (Hval : forall info, snd (check_for_update (cfg_period c) true dir w1) = Ok (Val info) ->
      snd (fetch_info w1) = Ok (Val (Some info)) /\ ui_newer info = true).
    { intros info. rewrite check_eq. unfold do_check, bind at 1.
      destruct (fetch_info w1) as [w2 [[[i|]|e]| |n]] eqn:Ef; cbn [snd]; try discriminate.
      - unfold bind. destruct (check_timestamp dir w2) as [w3 [u| |n]]; unfold ret; cbn [snd]; try discriminate.
        destruct (ui_newer i) eqn:Ei; intros Hx; [|discriminate]. assert (i = info) by congruence. subst i. auto.
      - unfold bind. destruct (check_timestamp dir w2) as [w3 [u| |n]]; discriminate. }
    assert (Tq : quiet (check_for_update (cfg_period c) true dir)) by apply quiet_check.
    specialize (Tq w1). destruct Tq as [Tq _].
    destruct (check_for_update (cfg_period c) true dir w1) as [w2 rr]. cbn [fst snd] in *.
    assert (T2 : exists t, w_trace w2 = t ++ w_trace w /\ Forall P t).
    { destruct T1 as (t1 & E1 & P1), He as (t2 & E2 & P2). exists (t2 ++ t1). split; [rewrite E2, E1; apply app_assoc|]. apply Forall_app. auto. }
    assert (More : forall w3 e, J w3 /\ (exists t, w_trace w3 = t ++ w_trace w /\ Forall P t) ->
      (match e with EOut _ => True | _ => False end) ->
      J (add_event e w3) /\ exists t, w_trace (add_event e w3) = t ++ w_trace w /\ Forall P t).
    { intros w3 e [J3 (t & Et & Pt)] He3. split.
      - apply always_event; [destruct e; try contradiction; exact Logic.I|exact J3].
      - exists (e :: t). split; [cbn; now rewrite Et|]. constructor; [destruct e; try contradiction; exact Logic.I|exact Pt]. }
    destruct rr as [[info|e]| |n].
    - destruct (Hval info eq_refl) as [Hf Hn].
      assert (Hans : ~ In (typed_word w) [b "y"; b "Y"]).
      { destruct Hno as [Hno|Hno]; [exact Hno|]. exfalso. apply Hno. exists info. rewrite <- (fetch_net w w1) by reflexivity. auto. }
      unfold bind, say, on_world, println, print, scan. cbn [a_world a_conf a_vault add_event w_stdin].
      assert (Hst : w_stdin w2 = w_stdin w) by (rewrite Tq; reflexivity).
      unfold typed_word in Hans. rewrite Hst. destruct (scanln (w_stdin w)) as [ans rest]. cbn [fst] in Hans. cbn [a_world a_conf a_vault].
      set (w3 := set_stdin rest _).
      assert (W3 : J w3 /\ exists t, w_trace w3 = t ++ w_trace w /\ Forall P t).
      { apply (More (add_event _ w2)); [apply More|]; auto; exact Logic.I. }
      destruct (lv_from_name U ans) as [v|err] eqn:Elv; [destruct (lv_value v) eqn:Evv; [elim Hans; now apply (lv_val U ans v)|]|];
        unfold os_exit, lift; cbn [fst snd a_world];
        (split; [now left|]; destruct (More w3 (EOut (b "Aborting update..." ++ newline)) W3 Logic.I) as [X1 X2]; split; [exact X2|exact X1]).
    - unfold bind, say, on_world, println, print, os_exit, lift. cbn [a_world a_conf a_vault fst snd].
      split; [now left|]. destruct (More w2 (EOut (err_text e ++ newline)) (conj Hk T2) Logic.I) as [X1 X2]. auto.
    - cbn [fst snd a_world]. split; [now right|auto].
    - exfalso. now apply (Hres n). }
  rewrite Hw', Hr. destruct G as (G1 & (t & Et & Pt) & G3). split; [exact G1|]. rewrite Forall_forall in Pt. split; [|split].
  - intros u Hh. exact (Pt _ (happened_in _ _ _ _ Et Hh)).
  - intros n Hh. exact (Pt _ (happened_in _ _ _ _ Et Hh)).
  - now apply since_ever.
Qed.

Definition cli_world (answers : list net_reply) (input : bytes) : world :=
  MkWorld (MkDisk [([b "c"], NDir); ([b "bin"], NDir); (exeL, NFile (b "old") 493); ([b "tmp"], NDir)] [] (fun _ => false))
    18 (Some (b "/bin/1pass")) [] answers [] (map vb input) [] [].

Definition demo_process := process toy_crypto latin1 utc forwards toy_yaml demo_tar (fun rows => concat (concat rows)).

Example C55_example :
  let newer := NetBody demo_release true in
  snd (demo_process (b "/c") CmdUpdate (cli_world [newer; newer; NetBody (b "tgz") true; NetBody demo_sum true] (b "n" ++ newline))) = Exit 1 /\
  (let r := demo_process (b "/c") CmdUpdate (cli_world [newer; newer; NetBody (b "tgz") true; NetBody demo_sum true] (b "y" ++ newline)) in
   snd r = Ok tt /\ read_file (w_disk (fst r)) (b "/bin/1pass") = Some (b "new")).
Proof. vm_compute. auto. Qed.

(** ** C61 *)

Lemma run_other C U tz O Y T render dir c a : c <> CmdUpdate -> flag_of c = None ->
  run_command C U tz O Y T render dir c a =
  match c with
  | CmdConfigure => configure U Y dir a
  | CmdCategories => get_categories render dir a
  | _ => say (b "=== " ++ app_version ++ b " ===") a
  end.
Proof. destruct c; intros H1 H2; try discriminate; try reflexivity. now elim H1. Qed.

(** Events of a command that opens a vault. *)
Lemma does_vault_command (P : ev -> Prop) C U tz O Y T render dir c v :
  flag_of c = Some v -> (forall t, P (EOut t)) -> P EAsk -> does P (prepare U Y dir) ->
  does P (run_command C U tz O Y T render dir c).
Proof.
  intros Hf Po Pa Hp a. rewrite (run_vault_command _ _ _ _ _ _ _ _ _ v _ Hf).
  refine (does_bind P _ _ _ _ a).
  - intros a'. rewrite open_vault_eq. refine (does_bind P _ _ Hp _ a'). intros _.
    apply does_bind.
    + intros a2. rewrite choose_eq. exists []. split; [reflexivity|constructor].
    + intros vault a2. destruct (does_enter C U tz O vault a2) as (t & E & Ht). exists t. split; [exact E|].
      eapply Forall_impl; [|exact Ht]. intros e [->|He]; [exact Pa|]. destruct e; try contradiction. apply Po.
  - intros _ a2. destruct (does_finish U tz O render c a2) as (t & E & Ht). exists t. split; [exact E|].
    eapply Forall_impl; [|exact Ht]. intros e He. destruct e; try contradiction. apply Po.
Qed.

Definition no_request (e : ev) : Prop := match e with EGet _ => False | _ => True end.

Lemma silent_check dir a c : get_config (a_conf a) = Ok c -> cfg_notify c = false -> cli_check dir a = (a, Ok tt).
Proof.
  intros H1 H2. unfold cli_check, config_now, bind, the_conf, lift. rewrite H1. now rewrite H2.
Qed.

Lemma not_available_notify m c : get_config m = Ok c -> cfg_notify c = false -> is_available m = true.
Proof.
  destruct m as [[|[k v] m]|]; [|reflexivity|]; intros H1 H2.
  - vm_compute in H1. injection H1 as <-. discriminate.
  - vm_compute in H1. injection H1 as <-. discriminate.
Qed.

(** With notifications switched off in the settings, no command but update sends a
    request. *)
Theorem C61_notifications_off_partial : forall C U tz O Y T render dir c w w' r m cfg,
  c <> CmdUpdate -> load_config Y (w_disk w) dir = Ok m -> get_config m = Ok cfg -> cfg_notify cfg = false ->
  process C U tz O Y T render dir c w = (w', r) ->
  forall u, ~ happened w w' (EGet u).
Proof.
  intros C U tz O Y T render dir c w w' r m cfg Hc Hm Hcfg Hn H u Hh. rewrite process_run, Hm in H.
  assert (Hw' : w' = a_world (fst (run_command C U tz O Y T render dir c (MkApp w m init)))) by congruence.
  rewrite Hw' in Hh. change w with (a_world (MkApp w m init)) in Hh at 1. set (a := MkApp w m init) in *.
  assert (Hsc : cli_check dir a = (a, Ok tt)) by (apply (silent_check dir a cfg); assumption).
  assert (Po : forall t, no_request (EOut t)) by (intros; exact Logic.I).
  assert (Pf : forall f, no_request (EFs f)) by (intros; exact Logic.I).
  assert (G : exists t, w_trace (a_world (fst (run_command C U tz O Y T render dir c a))) = t ++ w_trace (a_world a) /\ Forall no_request t).
  { destruct (flag_of c) as [v|] eqn:Ef.
    - rewrite (run_vault_command _ _ _ _ _ _ _ _ _ v _ Ef). unfold bind at 1. rewrite open_vault_eq.
      unfold bind at 1, prepare, bind at 1, first_run, bind at 1, the_conf.
      change (is_available (a_conf a)) with (is_available m). rewrite (not_available_notify _ _ Hcfg Hn). unfold ret at 1. rewrite Hsc.
      assert (D : does no_request (vault <- choose v ;; enter C U tz O vault)%st).
      { apply does_bind; [intros a2; rewrite choose_eq; exists []; split; [reflexivity|constructor]|].
        intros vault a2. destruct (does_enter C U tz O vault a2) as (t & E & Ht). exists t. split; [exact E|].
        eapply Forall_impl; [|exact Ht]. intros e [->|He]; [exact Logic.I|]. destruct e; try contradiction. exact Logic.I. }
      assert (F : does no_request (finish U tz O render c)).
      { intros a2. destruct (does_finish U tz O render c a2) as (t & E & Ht). exists t. split; [exact E|].
        eapply Forall_impl; [|exact Ht]. intros e He. destruct e; try contradiction. exact Logic.I. }
      exact (does_bind _ _ _ D (fun _ => F) a).
    - rewrite run_other by assumption.
      destruct c; try discriminate; try (now elim Hc).
      + rewrite configure_eq. unfold bind at 1. rewrite Hsc. now apply does_interview.
      + unfold get_categories. unfold bind at 1. rewrite Hsc.
        refine (does_bind _ _ _ _ _ a); [apply does_vault|intros cats; now apply does_say].
      + apply (does_say _ Po (b "=== " ++ app_version ++ b " ===")). }
  destruct G as (t & Et & Pt). apply (happened_in _ _ _ _ Et) in Hh. rewrite Forall_forall in Pt. exact (Pt _ Hh).
Qed.
Print Assumptions C61_notifications_off_partial.

(** The settings of the examples: notifications off, vault /v. *)
Definition off_settings (vault : bytes) : gmap yval :=
  [(k_vault, YStr vault); (k_timeout, YInt 1); (k_notify, YBool false); (k_period, YInt 1)].
Definition vault_world (vault : bytes) (pass : list bytes) : world :=
  MkWorld (MkDisk (([b "c"], NDir) ::
     ([config_file; b "c"], NFile (match y_print toy_yaml (off_settings vault) with Some s => s | None => [] end) 420)
     :: d_fs demo_disk) [] (fun _ => false))
    18 (Some (b "/bin/1pass")) [] [] [] [] pass [].

Example C61_example : exists m cfg,
  load_config toy_yaml (w_disk (vault_world (b "/v") [b "freddy"])) (b "/c") = Ok m /\ get_config m = Ok cfg /\
  cfg_notify cfg = false /\
  screen (fst (demo_process (b "/c") (CmdOverview [] (b "BB") false) (vault_world (b "/v") [b "freddy"]))) =
   map (fun l => l ++ newline)
   [ b "Password:"; []; b "Credit Card"; dashes; b "Visa"; [];
     b "Updated: 2014-05-13 16:53:21" ++ newline ++ b "Created: 2011-03-13 07:06:41" ++ newline ++ b "Trashed: false";
     []; b "Main"; dashes; b "Pin: **********"; [] ].
Proof.
  eexists. eexists. split; [vm_compute; reflexivity|]. split; [vm_compute; reflexivity|]. split; vm_compute; reflexivity.
Qed.
