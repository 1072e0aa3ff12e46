(** More properties of the command line: when the commands ask for a newer release
    (C59), what they announce (C89) and what of the password can be seen (C79).
    Libraries, disks, networks, clocks, answers and passwords are arbitrary. *)
From Verif Require Import Base Utf8 Spec_Trim GoStrings GoStringsProof FieldsProof Json Civil Crypto Path Fs FsProof Domain DomainProof Repos
  Session SessionProof World WorldProof Config Updater UpdateProof Cli CliProof CliEvents
  Spec_Vault Toy ToyYaml Properties_Layout Properties_Config Properties_Update Properties_Check Properties_Cli Properties_Show Properties_Effects.
Local Notation newline := World.newline.

(** ** C59 for whole commands *)

(** The settings of a process: stored, and readable. *)
Definition settings (Y : yaml) (w : world) (dir : bytes) (cfg : config) : Prop := exists m,
  load_config Y (w_disk w) dir = Ok m /\ is_available m = true /\ get_config m = Ok cfg.

(** A check is due at time [t]: there is no readable time of the last one, or it was
    as many days ago as the settings say. *)
Definition due (w : world) (dir : bytes) (t period : Z) : Prop :=
  (forall s, ~ last_check (w_disk w) dir s) \/
  (exists s, last_check (w_disk w) dir s /\ (apart t s <= max_int64)%Z /\ (0 <= period)%Z /\ (days period <= apart t s)%Z).

(** The last check was less than that ago (see C59_checks_throttled for the 10 microseconds). *)
Definition recent (w : world) (dir : bytes) (t period : Z) : Prop :=
  exists s, last_check (w_disk w) dir s /\ (apart t s <= max_int64)%Z /\ (apart t s + 10000 <= days period)%Z.

Lemma command_eq_version c : c = CmdVersion \/ c <> CmdVersion.
Proof. destruct c; first [now left|right; discriminate]. Qed.

(** Every command but update and version looks for a release first; what follows sends no
    further request. *)
Lemma run_after_check (P : ev -> Prop) C U tz O Y T render dir c a :
  (forall t, P (EOut t)) -> (forall f, P (EFs f)) -> P EAsk ->
  c <> CmdUpdate -> c <> CmdVersion -> is_available (a_conf a) = true ->
  exists t, w_trace (a_world (fst (run_command C U tz O Y T render dir c a))) =
    t ++ w_trace (a_world (fst (cli_check dir a))) /\ Forall P t.
Proof.
  intros Po Pf Pa Hc Hv Ha.
  assert (G : forall k : act unit, does P k ->
    exists t, w_trace (a_world (fst ((cli_check dir ;;; k)%st a))) = t ++ w_trace (a_world (fst (cli_check dir a))) /\ Forall P t).
  { intros k Hk. unfold bind at 1. destruct (cli_check dir a) as [a1 [[]| |n]]; [apply Hk| |]; exists []; split; constructor. }
  destruct (flag_of c) as [v|] eqn:Ef.
  - rewrite (run_vault_command _ _ _ _ _ _ _ _ _ v _ Ef). unfold bind at 1. rewrite open_vault_eq.
    unfold bind at 1, prepare, bind at 1, first_run, bind at 1, the_conf.
    rewrite Ha. unfold ret at 1.
    assert (D : does P (vault <- choose v ;; enter C U tz O vault)%st).
    { apply does_bind; [intros a2; rewrite choose_eq; exists []; split; [reflexivity|constructor]|].
      intros vault a2. destruct (does_enter C U tz O vault a2) as (t & E & Ht). exists t. split; [exact E|].
      eapply Forall_impl; [|exact Ht]. intros e [->|He]; [exact Pa|]. destruct e; try contradiction. apply Po. }
    assert (F : does P (finish U tz O render c)).
    { intros a2. destruct (does_finish U tz O render c a2) as (t & E & Ht). exists t. split; [exact E|].
      eapply Forall_impl; [|exact Ht]. intros e He. destruct e; try contradiction. apply Po. }
    destruct (G _ (does_bind _ _ _ D (fun _ => F))) as (t & E & Ht). exists t. split; [|exact Ht]. rewrite <- E.
    unfold bind at 2. destruct (cli_check dir a) as [a1 [[]| |n]]; reflexivity.
  - rewrite run_other by assumption.
    destruct c; try discriminate; try (now elim Hc); try (now elim Hv).
    + rewrite configure_eq. apply G. now apply does_interview.
    + unfold get_categories. apply G. apply does_bind; [apply does_vault|intros cats; now apply does_say].
Qed.

(** The check of a command is the check without force, with the configured period. *)
Lemma cli_check_on dir a cfg : get_config (a_conf a) = Ok cfg -> cfg_notify cfg = true ->
  cli_check dir a =
  match check_for_update (cfg_period cfg) false dir (a_world a) with
  | (w1, Ok (Val info)) =>
      say (b "New version of 1pass is available (current: " ++ app_version ++ b ", available: "
             ++ ui_version info ++ b "). Run 'sudo 1pass update' to upgrade." ++ newline)
        (MkApp w1 (a_conf a) (a_vault a))
  | (w1, Ok (Err _)) => (MkApp w1 (a_conf a) (a_vault a), Ok tt)
  | (w1, Panic) => (MkApp w1 (a_conf a) (a_vault a), Panic)
  | (w1, Exit n) => (MkApp w1 (a_conf a) (a_vault a), Exit n)
  end.
Proof.
  intros H1 H2. unfold cli_check, config_now, bind, the_conf, lift. rewrite H1, H2.
  unfold on_world at 1, facade_check, bind, lift. rewrite H1.
  destruct (check_for_update (cfg_period cfg) false dir (a_world a)) as [w1 [[info|e]| |n]]; reflexivity.
Qed.

(** With a recent check no command but update sends a request. *)
Theorem C59_commands_throttled : forall C U tz O Y T render dir c w w' r cfg t ts,
  c <> CmdUpdate -> settings Y w dir cfg -> w_clock w = t :: ts -> recent w dir t (cfg_period cfg) ->
  process C U tz O Y T render dir c w = (w', r) ->
  forall u, ~ happened w w' (EGet u).
Proof.
  intros C U tz O Y T render dir c w w' r cfg t ts Hc (m & Hm & Ha & Hcfg) Hcl (s & Hs & Hap & Hle) H u Hh.
  destruct (cfg_notify cfg) eqn:Hn.
  2: exact (C61_notifications_off_partial C U tz O Y T render dir c w w' r m cfg Hc Hm Hcfg Hn H u Hh).
  rewrite process_run, Hm in H.
  assert (Hw' : w' = a_world (fst (run_command C U tz O Y T render dir c (MkApp w m init)))) by congruence.
  destruct (check_for_update (cfg_period cfg) false dir w) as [w1 r1] eqn:Ec.
  destruct (C59_checks_throttled _ _ _ _ _ _ _ Hcl Ec) as (_ & Hthr & _).
  destruct (Hthr s Hs Hap) as (_ & Hno). destruct (Hno Hle) as ((t1 & E1 & N1) & Hr1 & _). subst r1.
  assert (Hsc : cli_check dir (MkApp w m init) = (MkApp w1 m init, Ok tt)).
  { rewrite (cli_check_on dir (MkApp w m init) cfg Hcfg Hn). cbn [a_world]. rewrite Ec. reflexivity. }
  assert (G : exists t, w_trace w' = t ++ w_trace w /\ Forall no_request t).
  { destruct (command_eq_version c) as [->|Hv].
    - rewrite Hw'. cbn [run_command].
      exact (does_say no_request (fun _ => Logic.I) (b "=== " ++ app_version ++ b " ===") (MkApp w m init)).
    - destruct (run_after_check no_request C U tz O Y T render dir c (MkApp w m init)
        (fun _ => Logic.I) (fun _ => Logic.I) Logic.I Hc Hv Ha) as (t2 & E2 & P2).
      exists (t2 ++ t1). split.
      + rewrite Hw', E2, Hsc. cbn [fst a_world]. rewrite E1. apply app_assoc.
      + apply Forall_app. split; [exact P2|]. apply Forall_forall. intros e He. destruct e; try exact Logic.I.
        exact (N1 _ He). }
  destruct G as (t2 & Et & Pt). apply (happened_in _ _ _ _ Et) in Hh. rewrite Forall_forall in Pt. exact (Pt _ Hh).
Qed.
Print Assumptions C59_commands_throttled.

(** A check that is due is made. *)
Lemma due_check dir w t ts period : w_clock w = t :: ts -> due w dir t period ->
  check_for_update period false dir w = do_check dir (rest_clock w).
Proof.
  intros Hcl Hdue. destruct (check_for_update period false dir w) as [w1 r1] eqn:Ec.
  destruct (C59_checks_throttled _ _ _ _ _ _ _ Hcl Ec) as (A1 & A2 & _).
  assert (Ha : asked w w1).
  { destruct Hdue as [Hno|(s & Hs & Hap & Hnn & Hle)]; [now apply A1|]. now apply (proj1 (A2 s Hs Hap)). }
  rewrite check_eq, should_check_eq in Ec. set (bb := orb _ _) in Ec. destruct bb; [now rewrite Ec|].
  exfalso. assert (Hw : w1 = rest_clock w) by congruence. subst w1. destruct (rest_clock_same w) as (R1 & _).
  apply (not_asked w (rest_clock w)); [|exact Ha]. exists []. split; [exact R1|intros u []].
Qed.

(** When a check is due and notifications are on, every command but version asks
    for the releases. *)
Theorem C59_commands_ask : forall C U tz O Y T render dir c w w' r cfg t ts,
  c <> CmdUpdate -> c <> CmdVersion -> settings Y w dir cfg -> cfg_notify cfg = true ->
  w_clock w = t :: ts -> due w dir t (cfg_period cfg) ->
  process C U tz O Y T render dir c w = (w', r) ->
  happened w w' (EGet releases_url).
Proof.
  intros C U tz O Y T render dir c w w' r cfg t ts Hc Hv (m & Hm & Ha & Hcfg) Hn Hcl Hdue H.
  rewrite process_run, Hm in H.
  assert (Hw' : w' = a_world (fst (run_command C U tz O Y T render dir c (MkApp w m init)))) by congruence. subst w'.
  destruct (run_after_check (fun _ => True) C U tz O Y T render dir c (MkApp w m init)
    (fun _ => Logic.I) (fun _ => Logic.I) Logic.I Hc Hv Ha) as (t2 & E2 & _).
  assert (G : asked w (a_world (fst (cli_check dir (MkApp w m init))))).
  { rewrite (cli_check_on dir (MkApp w m init) cfg Hcfg Hn). cbn [a_world].
    rewrite (due_check dir w t ts _ Hcl Hdue). assert (A := do_check_asks dir (rest_clock w)).
    destruct (rest_clock_same w) as (R1 & _). unfold asked in A. rewrite R1 in A.
    destruct (do_check dir (rest_clock w)) as [w1 [[info|e]| |n]]; try exact A. cbn [fst] in A. destruct A as (t1 & E1 & I1).
    cbn [a_world a_conf a_vault].
    destruct (does_say (fun _ => True) (fun _ => Logic.I) (b "New version of 1pass is available (current: " ++ app_version ++ b ", available: "
             ++ ui_version info ++ b "). Run 'sudo 1pass update' to upgrade." ++ newline) (MkApp w1 m init)) as (t3 & E3 & _).
    exists (t3 ++ t1). split; [rewrite E3; cbn [a_world]; rewrite E1; apply app_assoc|]. apply in_or_app. now right. }
  destruct G as (t1 & E1 & I1). exists (t2 ++ t1). split; [rewrite E2, E1; apply app_assoc|]. apply in_or_app. now right.
Qed.
Print Assumptions C59_commands_ask.

Lemma happens_first {A B} (m : act A) (k : A -> act B) a w e : (forall x, does (fun _ => True) (k x)) ->
  happened w (a_world (fst (m a))) e -> happened w (a_world (fst (bind m k a))) e.
Proof.
  intros Hk (t & E & I). unfold bind. destruct (m a) as [a1 [x| |n]]; cbn [fst] in *; [|exists t; auto|exists t; auto].
  destruct (Hk x a1) as (t2 & E2 & _). exists (t2 ++ t). split; [rewrite E2, E; apply app_assoc|]. apply in_or_app. now right.
Qed.

(** The command update asks, whatever the settings say and whenever the last check was. *)
Theorem C59_update_asks : forall C U tz O Y T render dir w w' r m cfg,
  load_config Y (w_disk w) dir = Ok m -> get_config m = Ok cfg ->
  process C U tz O Y T render dir CmdUpdate w = (w', r) ->
  happened w w' (EGet releases_url).
Proof.
  intros C U tz O Y T render dir w w' r m cfg Hm Hcfg H.
  rewrite process_run, Hm in H.
  assert (Hw' : w' = a_world (fst (run_command C U tz O Y T render dir CmdUpdate (MkApp w m init)))) by congruence. subst w'.
  cbn [run_command]. unfold run_update. unfold bind at 1.
  set (w1 := add_event (EOut (b "Checking for 1pass application updates..." ++ newline)) w).
  change (say (b "Checking for 1pass application updates...") (MkApp w m init)) with (MkApp w1 m init, Ok tt).
  unfold bind at 1, the_conf.
  assert (Hs : forall t, does (fun _ => True) (say t)) by (intros t; apply does_say; intros; exact Logic.I).
  apply happens_first.
  - intros [info|e]; [|apply does_bind; [apply Hs|intros _; apply does_lift]].
    apply does_bind; [apply Hs|]. intros _. apply does_bind; [apply does_print; intros; exact Logic.I|]. intros _.
    apply does_bind; [apply does_scan|]. intros answer.
    assert (Ab : does (fun _ => True) (say (b "Aborting update...") ;;; @os_exit app unit 1)%st) by (apply does_bind; [apply Hs|intros _; apply does_lift]).
    destruct (lv_from_name U answer) as [v|e]; [|exact Ab]. destruct (lv_value v); [|exact Ab].
    apply does_bind; [apply Hs|]. intros _. apply does_bind.
    + apply does_world. apply emits_bind; [apply emits_lift|]. intros c. apply emits_update. intros; exact Logic.I.
    + intros [e|]; [apply does_bind; [apply Hs|intros _; apply does_lift]|apply Hs].
  - rewrite on_world_eq. cbn [fst a_world a_conf a_vault].
    unfold facade_check, bind at 1, lift. rewrite Hcfg. rewrite check_eq.
    destruct (do_check_asks dir w1) as (t & E & I). exists (t ++ [EOut (b "Checking for 1pass application updates..." ++ newline)]).
    split; [rewrite E, <- app_assoc; reflexivity|]. apply in_or_app. now left.
Qed.
Print Assumptions C59_update_asks.

(** ** C89: a newer release is announced *)

Definition announcement (version : bytes) : bytes :=
  b "New version of 1pass is available (current: " ++ app_version ++ b ", available: " ++ version
  ++ b "). Run 'sudo 1pass update' to upgrade." ++ newline ++ newline.

Lemma announcement_line v :
  (b "New version of 1pass is available (current: " ++ app_version ++ b ", available: " ++ v
   ++ b "). Run 'sudo 1pass update' to upgrade." ++ newline) ++ newline = announcement v.
Proof. unfold announcement. rewrite <- !app_assoc. reflexivity. Qed.

(** An action that always comes to its end. *)
Definition ends {A} (m : io A) : Prop := forall w, exists w1 x, m w = (w1, Ok x).
Lemma ends_ret {A} (x : A) : ends (ret x).
Proof. intros w. eexists. eexists. reflexivity. Qed.
Lemma ends_bind {A B} (m : io A) (k : A -> io B) : ends m -> (forall x, ends (k x)) -> ends (bind m k).
Proof. intros Hm Hk w. unfold bind. destruct (Hm w) as (w1 & x & ->). apply Hk. Qed.
Lemma ends_change g : ends (change g).
Proof. intros w. unfold change. destruct (w_faults w) as [|[n|] l]; eexists; eexists; reflexivity. Qed.
Lemma ends_make_dirs ls : ends (make_dirs ls).
Proof.
  induction ls as [|l ls IH]; cbn [make_dirs]; [apply ends_ret|]. apply ends_bind; [apply ends_change|].
  intros [|]; [exact IH|apply ends_ret].
Qed.
Lemma ends_mkdir p : ends (mkdir_all p).
Proof.
  intros w. unfold mkdir_all. destruct p; [eexists; eexists; reflexivity|].
  destruct (missing_dirs _ _ _) as [ls|]; [apply ends_make_dirs|eexists; eexists; reflexivity].
Qed.
Lemma ends_write_file p data perm : ends (write_file p data perm).
Proof.
  apply ends_bind.
  - intros w. unfold open_trunc. destruct (resolve_new (w_disk w) p) as [l|]; [|eexists; eexists; reflexivity].
    destruct (fs_get (w_fs w) l) as [[x m|]|]; try (eexists; eexists; reflexivity);
      (apply ends_bind; [apply ends_change|intros; apply ends_ret]).
  - intros [l|]; [|apply ends_ret]. intros w. unfold write_bytes. destruct (w_faults w) as [|[n|] fl]; eexists; eexists; reflexivity.
Qed.
Lemma ends_timestamp dir : ends (check_timestamp dir).
Proof.
  apply ends_bind; [intros w; unfold now; destruct (w_clock w); eexists; eexists; reflexivity|]. intros t.
  apply ends_bind; [intros w; eexists; eexists; reflexivity|]. intros d.
  apply ends_bind; [destruct d; [apply ends_ret|apply ends_mkdir]|]. intros _.
  apply ends_bind; [apply ends_write_file|intros _; apply ends_ret].
Qed.

Definition file_event (e : ev) : Prop := exists f, e = EFs f.
Lemma timestamp_events dir w : exists w1 t, check_timestamp dir w = (w1, Ok tt) /\ w_trace w1 = t ++ w_trace w /\ Forall file_event t.
Proof.
  destruct (ends_timestamp dir w) as (w1 & [] & E). destruct (emits_timestamp file_event ltac:(intros f; now exists f) dir w) as (t & Et & Ht).
  rewrite E in Et. exists w1, t. auto.
Qed.

(** What follows a request that is answered with [x]. *)
Lemma do_check_answered dir w body net x : w_net w = NetBody body true :: net -> read_releases body = Ok (Val x) ->
  exists w1 files, do_check dir w = (w1, Ok (match x with Some info => if ui_newer info then Val info else Err ErrNoUpdate | None => Err ErrNoUpdate end)) /\
    w_trace w1 = files ++ EGet releases_url :: w_trace w /\ Forall file_event files.
Proof.
  intros Hnet Hr. unfold do_check, bind at 1, fetch_info, bind at 1, http_get.
  change github_releases with releases_url.
  assert (E : exists c u, releases_url = c :: u) by (eexists; eexists; reflexivity). destruct E as (c & u & ->).
  rewrite Hnet. unfold lift. rewrite Hr.
  match goal with |- context [check_timestamp dir] => idtac end.
  set (w0 := set_net net (add_event (EGet (c :: u)) w)) in *.
  destruct (timestamp_events dir w0) as (w1 & t & E & Et & Ht). exists w1, t. split; [|split; [exact Et|exact Ht]].
  destruct x as [info|]; unfold bind; rewrite E; reflexivity.
Qed.

Lemma newer_announced : forall C U tz O Y T render dir c w w' r cfg t ts body net info,
  c <> CmdUpdate -> c <> CmdVersion -> settings Y w dir cfg -> cfg_notify cfg = true ->
  w_clock w = t :: ts -> due w dir t (cfg_period cfg) ->
  w_net w = NetBody body true :: net -> read_releases body = Ok (Val (Some info)) -> ui_newer info = true ->
  process C U tz O Y T render dir c w = (w', r) ->
  exists later files,
    w_trace w' = later ++ EOut (announcement (ui_version info)) :: files ++ EGet releases_url :: w_trace w /\
    Forall file_event files /\ forall u, ~ In (EGet u) later.
Proof.
  intros C U tz O Y T render dir c w w' r cfg t ts body net info Hc Hv (m & Hm & Ha & Hcfg) Hn Hcl Hdue Hnet Hr Hnew H.
  rewrite process_run, Hm in H.
  assert (Hw' : w' = a_world (fst (run_command C U tz O Y T render dir c (MkApp w m init)))) by congruence. subst w'.
  destruct (run_after_check no_request C U tz O Y T render dir c (MkApp w m init)
    (fun _ => Logic.I) (fun _ => Logic.I) Logic.I Hc Hv Ha) as (later & E2 & P2).
  destruct (rest_clock_same w) as (R1 & _ & R3). rewrite <- R3 in Hnet.
  destruct (do_check_answered dir (rest_clock w) body net (Some info) Hnet Hr) as (w1 & files & E1 & Et & Hf).
  rewrite Hnew in E1. exists later, files. split; [|split; [exact Hf|]].
  - rewrite E2. apply f_equal. rewrite (cli_check_on dir (MkApp w m init) cfg Hcfg Hn). cbn [a_world a_conf a_vault].
    rewrite (due_check dir w t ts _ Hcl Hdue), E1. rewrite <- R1, <- Et.
    rewrite <- (announcement_line (ui_version info)). reflexivity.
  - intros u Hu. rewrite Forall_forall in P2. exact (P2 _ Hu).
Qed.

(** The newest release cannot be had, or is not newer. *)
Definition nothing_newer (w : world) : Prop :=
  match w_net w with
  | NetBody body true :: _ => exists x, read_releases body = Ok x /\ forall info, x = Val (Some info) -> ui_newer info = false
  | _ => True
  end.

Lemma nothing_newer_check dir a cfg : get_config (a_conf a) = Ok cfg -> nothing_newer (a_world a) ->
  exists w1 t, cli_check dir a = (MkApp w1 (a_conf a) (a_vault a), Ok tt) /\ w_trace w1 = t ++ w_trace (a_world a) /\
    Forall (fun e => file_event e \/ e = EGet releases_url) t.
Proof.
  intros Hcfg Hnn. destruct (cfg_notify cfg) eqn:Hn.
  2: { exists (a_world a), []. rewrite (silent_check dir a cfg Hcfg Hn). destruct a. repeat split; constructor. }
  rewrite (cli_check_on dir a cfg Hcfg Hn), check_eq, should_check_eq. set (bb := orb _ _).
  set (w := a_world a) in *. destruct (rest_clock_same w) as (R1 & _ & R3).
  destruct bb; [|exists (rest_clock w), []; repeat split; [exact R1|constructor]].
  unfold nothing_newer in Hnn. rewrite <- R3 in Hnn. rewrite <- R1.
  destruct (fetch_asks (rest_clock w)) as (Hft & _).
  assert (G : forall e, fetch_info (rest_clock w) = (fst (fetch_info (rest_clock w)), Ok (Err e)) ->
    exists w1 t, match do_check dir (rest_clock w) with
     | (w1, Ok (Val info)) => say (b "New version of 1pass is available (current: " ++ app_version ++ b ", available: "
             ++ ui_version info ++ b "). Run 'sudo 1pass update' to upgrade." ++ newline)
        (MkApp w1 (a_conf a) (a_vault a))
     | (w1, Ok (Err _)) => (MkApp w1 (a_conf a) (a_vault a), Ok tt)
     | (w1, Panic) => (MkApp w1 (a_conf a) (a_vault a), Panic)
     | (w1, Exit n) => (MkApp w1 (a_conf a) (a_vault a), Exit n)
     end = (MkApp w1 (a_conf a) (a_vault a), Ok tt) /\ w_trace w1 = t ++ w_trace (rest_clock w) /\
     Forall (fun e => file_event e \/ e = EGet releases_url) t).
  { intros e E. exists (fst (fetch_info (rest_clock w))), [EGet releases_url]. split; [|split; [exact Hft|constructor; [now right|constructor]]].
    unfold do_check, bind at 1. rewrite E. reflexivity. }
  assert (Hu : exists c u, releases_url = c :: u) by (eexists; eexists; reflexivity). destruct Hu as (c & u & Hu).
  destruct (w_net (rest_clock w)) as [|[|body [|]] net] eqn:Enet.
  - apply (G io_error). unfold fetch_info, bind, http_get. change github_releases with releases_url. rewrite Hu, Enet. reflexivity.
  - apply (G io_error). unfold fetch_info, bind, http_get. change github_releases with releases_url. rewrite Hu, Enet. reflexivity.
  - destruct Hnn as ([x|e] & Hx & Hxn).
    2: { apply (G e). unfold fetch_info, bind, http_get. change github_releases with releases_url. rewrite Hu, Enet. unfold lift. rewrite Hx. reflexivity. }
    destruct (do_check_answered dir (rest_clock w) body net x Enet Hx) as (w1 & files & E1 & Et & Hf).
    exists w1, (files ++ [EGet releases_url]). split; [|split; [rewrite Et, <- app_assoc; reflexivity|]].
    + rewrite E1. destruct x as [info|]; [rewrite (Hxn _ eq_refl)|]; reflexivity.
    + apply Forall_app. split; [|constructor; [now right|constructor]]. eapply Forall_impl; [|exact Hf]. auto.
  - apply (G io_error). unfold fetch_info, bind, http_get. change github_releases with releases_url. rewrite Hu, Enet. reflexivity.
Qed.

Lemma outs_none t : Forall (fun e => file_event e \/ e = EGet releases_url) t ->
  flat_map (fun e => match e with EOut x => [x] | _ => [] end) t = [].
Proof.
  induction 1 as [|e t He Ht IH]; [reflexivity|]. cbn [flat_map]. rewrite IH.
  destruct He as [(f & ->)|He]; [reflexivity|]. rewrite He. reflexivity.
Qed.

Lemma nothing_announced : forall C U tz O Y T render dir w m cfg,
  load_config Y (w_disk w) dir = Ok m -> get_config m = Ok cfg -> nothing_newer w ->
  exists w', process C U tz O Y T render dir CmdCategories w = (w', Ok tt) /\ screen w' = screen w ++
    [render ([b "lp."; b "category"] :: number_rows 1 (map (fun c => [cat_name c]) (sort_cats (st_reg init)))) ++ newline].
Proof.
  intros C U tz O Y T render.
  intros dir w m cfg Hm Hcfg Hnn. rewrite process_run, Hm.
  destruct (nothing_newer_check dir (MkApp w m init) cfg Hcfg Hnn) as (w1 & t & E & Et & Ht).
  assert (Hrun : exists v, run_command C U tz O Y T render dir CmdCategories (MkApp w m init) =
    (MkApp (add_event (EOut (render ([b "lp."; b "category"] :: number_rows 1 (map (fun c => [cat_name c]) (sort_cats (st_reg init)))) ++ newline)) w1) m v, Ok tt)).
  { cbn [run_command]. unfold get_categories, bind at 1. rewrite E. eexists. reflexivity. }
  destruct Hrun as (v & ->). eexists. split; [reflexivity|].
  unfold screen. cbn [fst a_world w_trace add_event flat_map]. cbn [a_world] in Et. rewrite Et, flat_map_app, (outs_none _ Ht).
  reflexivity.
Qed.

(** ** C79: of the password only its effect can be seen *)

(** Two outcomes of opening a vault that differ in the keys at most: the same error, and the same items. *)
Definition same_outcome (x y : res (state * option goerr)) : Prop :=
  match x, y with
  | Ok (s, e), Ok (t, f) => e = f /\ st_items s = st_items t /\ st_reg s = st_reg t
  | Panic, Panic => True
  | Exit n, Exit m => n = m
  | _, _ => False
  end.

(** Before a vault is opened none is open. *)
Definition holds {A} (m : act A) : Prop := forall a, a_vault (fst (m a)) = a_vault a.
Lemma holds_ret {A} (x : A) : holds (ret x).
Proof. intros a. reflexivity. Qed.
Lemma holds_lift {A} (x : res A) : holds (lift x).
Proof. intros a. reflexivity. Qed.
Lemma holds_conf : holds the_conf.
Proof. intros a. reflexivity. Qed.
Lemma holds_world {A} (m : io A) : holds (on_world m).
Proof. intros a. rewrite on_world_eq. reflexivity. Qed.
Lemma holds_bind {A B} (m : act A) (k : A -> act B) : holds m -> (forall x, holds (k x)) -> holds (bind m k).
Proof.
  intros Hm Hk a. unfold bind. specialize (Hm a). destruct (m a) as [a1 [x| |n]]; cbn [fst] in *; [|exact Hm|exact Hm].
  rewrite Hk. exact Hm.
Qed.
Lemma holds_say t : holds (say t).
Proof. apply holds_world. Qed.
Lemma holds_config_now : holds config_now.
Proof. apply holds_bind; [apply holds_conf|intros; apply holds_lift]. Qed.
Lemma holds_check dir : holds (cli_check dir).
Proof. intros a. apply (aside_check dir a). Qed.
Lemma holds_save_now Y dir c : holds (save_now Y dir c).
Proof. intros a. unfold save_now. destruct (save_config Y dir c (a_conf a) (a_world a)) as [w [m| |n]]; reflexivity. Qed.
Lemma holds_configure U Y dir : holds (configure U Y dir).
Proof.
  rewrite configure_eq. apply holds_bind; [apply holds_check|]. intros _. unfold interview.
  repeat first
   [ apply holds_ret | apply holds_lift | apply holds_conf | apply holds_world | apply holds_say | apply holds_config_now | apply holds_save_now
   | apply holds_bind; [|intros] | match goal with |- holds (match ?x with _ => _ end) => destruct x end
   | match goal with |- holds (let (_, _) := ?x in _) => destruct x end ].
Qed.
Lemma prepare_vault U Y dir a : a_vault (fst (prepare U Y dir a)) = a_vault a.
Proof.
  apply (holds_bind (first_run U Y dir) (fun _ => cli_check dir)); [|intros _; apply holds_check].
  apply holds_bind; [apply holds_conf|]. intros m. destruct (is_available m); [apply holds_ret|].
  apply holds_bind; [apply holds_say|]. intros _. apply holds_bind; [apply holds_say|]. intros _.
  apply holds_bind; [apply holds_configure|]. intros _. apply holds_say.
Qed.

Lemma finish_alike U tz O render c w m s t : st_items s = st_items t -> st_reg s = st_reg t ->
  a_world (fst (finish U tz O render c (MkApp w m s))) = a_world (fst (finish U tz O render c (MkApp w m t))) /\
  snd (finish U tz O render c (MkApp w m s)) = snd (finish U tz O render c (MkApp w m t)).
Proof.
  intros Hi Hr. destruct c; try (split; reflexivity); cbn [finish].
  - unfold bind, on_vault. cbn [a_world a_conf a_vault]. rewrite <- Hr.
    assert (G : forall cat, get_items U O cat (trim_space name) trashed t = get_items U O cat (trim_space name) trashed s)
      by (intros cat; unfold get_items; now rewrite Hi).
    destruct category as [|x category].
    + cbn [a_vault]. rewrite G. destruct (get_items U O None (trim_space name) trashed s); split; reflexivity.
    + destruct (cat_from_name U (st_reg s) (trim_space (x :: category))) as [cat|e]; [|split; reflexivity].
      cbn [a_vault]. rewrite G. destruct (get_items U O (Some cat) (trim_space name) trashed s); split; reflexivity.
  - rewrite !finish_item. cbn [a_world a_conf a_vault]. unfold get_item. rewrite <- Hi.
    destruct (find_first uid trashed (st_items s)); split; reflexivity.
  - rewrite !finish_item. cbn [a_world a_conf a_vault]. unfold get_item. rewrite <- Hi.
    destruct (find_first uid trashed (st_items s)); split; reflexivity.
Qed.

(** If two passwords do the same to the vaults that could be opened (both are wrong, say), all that
    a command shows, writes and requests and how it ends is the same for both. *)
Theorem C79_only_the_effect_shows : forall C U tz O Y T render dir c w p q ps w1 w2 r1 r2,
  process C U tz O Y T render dir c (set_pass (p :: ps) w) = (w1, r1) ->
  process C U tz O Y T render dir c (set_pass (q :: ps) w) = (w2, r2) ->
  (forall v path s, flag_of c = Some v -> v = [] \/ path = v -> validate (w_disk w1) path init = Ok (s, None) ->
     same_outcome (unlock C U tz O (w_disk w1) path p s) (unlock C U tz O (w_disk w1) path q s)) ->
  w_trace w1 = w_trace w2 /\ w_disk w1 = w_disk w2 /\ r1 = r2.
Proof.
  intros C U tz O Y T render dir c w p q ps w1 w2 r1 r2 H1 H2 Hal.
  assert (Hdisk := C79_password_leaves_no_trace C U tz O Y T render dir c w (p :: ps) (q :: ps)). cbv zeta in Hdisk.
  rewrite H1, H2 in Hdisk. cbn [fst] in Hdisk. destruct Hdisk as [Hdisk _].
  rewrite process_run in H1, H2.
  change (w_disk (set_pass (p :: ps) w)) with (w_disk w) in H1. change (w_disk (set_pass (q :: ps) w)) with (w_disk w) in H2.
  destruct (load_config Y (w_disk w) dir) as [m| |n].
  2,3: assert (w1 = set_pass (p :: ps) w /\ w2 = set_pass (q :: ps) w /\ r1 = r2) as (-> & -> & ->)
    by (split; [congruence|split; congruence]); repeat split.
  set (a := MkApp w m init) in *.
  change (MkApp (set_pass (p :: ps) w) m init) with (repass (p :: ps) a) in H1.
  change (MkApp (set_pass (q :: ps) w) m init) with (repass (q :: ps) a) in H2.
  assert (G1 : w1 = a_world (fst (run_command C U tz O Y T render dir c (repass (p :: ps) a))) /\
    r1 = snd (run_command C U tz O Y T render dir c (repass (p :: ps) a))) by (split; congruence).
  assert (G2 : w2 = a_world (fst (run_command C U tz O Y T render dir c (repass (q :: ps) a))) /\
    r2 = snd (run_command C U tz O Y T render dir c (repass (q :: ps) a))) by (split; congruence).
  clear H1 H2. destruct (flag_of c) as [v|] eqn:Ef.
  - rewrite (run_prepared _ _ _ _ _ _ _ _ _ v (repass (p :: ps) a) Ef), (sightless_prepare U Y dir a) in G1.
    rewrite (run_prepared _ _ _ _ _ _ _ _ _ v (repass (q :: ps) a) Ef), (sightless_prepare U Y dir a) in G2.
    assert (Hv : a_vault (fst (prepare U Y dir a)) = init) by apply prepare_vault.
    destruct (prepare U Y dir a) as [a1 [u| |n]]; cbn [fst snd] in *.
    2,3: destruct G1 as [-> ->], G2 as [-> ->]; repeat split.
    rewrite choose_eq in G1. rewrite choose_eq in G2. cbn [snd] in G1, G2.
    change (a_conf (repass (p :: ps) a1)) with (a_conf a1) in G1. change (a_conf (repass (q :: ps) a1)) with (a_conf a1) in G2.
    set (vp := vault_path v (a_conf a1)) in *.
    assert (Hvp : v = [] \/ vp = v) by (unfold vp; destruct v; [now left|now right]).
    assert (Main : (exists n, v = [] /\ (get_config (a_conf a1) = Panic \/ get_config (a_conf a1) = Exit n)) \/
      (w1 = a_world (fst ((enter C U tz O vp ;;; finish U tz O render c)%st (repass (p :: ps) a1))) /\
       r1 = snd ((enter C U tz O vp ;;; finish U tz O render c)%st (repass (p :: ps) a1)) /\
       w2 = a_world (fst ((enter C U tz O vp ;;; finish U tz O render c)%st (repass (q :: ps) a1))) /\
       r2 = snd ((enter C U tz O vp ;;; finish U tz O render c)%st (repass (q :: ps) a1)))).
    { destruct v; [|right; tauto]. destruct (get_config (a_conf a1)) as [cf| |n]; [right; tauto|left..]; [exists 0|exists n]; auto. }
    destruct Main as [(n & -> & Hx)|(E1 & E2 & E3 & E4)].
    { destruct Hx as [Hx|Hx]; rewrite Hx in G1, G2; destruct G1 as [-> ->], G2 as [-> ->]; repeat split. }
    clear G1 G2.
    assert (Hd1 : w_disk w1 = w_disk (a_world a1)).
    { assert (K : calm (enter C U tz O vp ;;; finish U tz O render c)%st) by (apply calm_bind; [apply calm_enter|intros; apply calm_finish]).
      rewrite E1. exact (proj2 (K (repass (p :: ps) a1))). }
    rewrite Hd1 in Hal. unfold bind in E1, E2, E3, E4. rewrite enter_eq in E1. rewrite enter_eq in E2. rewrite enter_eq in E3. rewrite enter_eq in E4.
    cbn [repass a_world a_conf a_vault] in E1, E2, E3, E4. change (w_disk (set_pass ?x (a_world a1))) with (w_disk (a_world a1)) in E1, E2, E3, E4.
    rewrite Hv in E1, E2, E3, E4.
    destruct (validate (w_disk (a_world a1)) vp init) as [[s1 [e|]]| |n] eqn:Ev.
    + subst. repeat split.
    + specialize (Hal v vp s1 eq_refl Hvp Ev).
      change (typed_pass (set_pass (p :: ps) (a_world a1))) with p in *. change (typed_pass (set_pass (q :: ps) (a_world a1))) with q in *.
      assert (Ew : after_ask (add_event (EOut (b "Password:" ++ newline)) (set_pass (p :: ps) (a_world a1))) =
        after_ask (add_event (EOut (b "Password:" ++ newline)) (set_pass (q :: ps) (a_world a1)))) by reflexivity.
      rewrite <- Ew in E3, E4. set (w0 := after_ask (add_event (EOut (b "Password:" ++ newline)) (set_pass (p :: ps) (a_world a1)))) in *.
      destruct (unlock C U tz O (w_disk (a_world a1)) vp p s1) as [[s2 e2]| |n2], (unlock C U tz O (w_disk (a_world a1)) vp q s1) as [[s3 e3]| |n3];
        cbn [same_outcome] in Hal; try contradiction.
      * destruct Hal as (-> & Hi & Hr). destruct e3 as [e|].
        { subst. repeat split. }
        destruct (finish_alike U tz O render c w0 (a_conf a1) s2 s3 Hi Hr) as [F1 F2].
        rewrite E2, E4, E1, E3, F1, F2. repeat split.
      * subst. repeat split.
      * subst. repeat split.
    + subst. repeat split.
    + subst. repeat split.
  - assert (S : sightless (run_command C U tz O Y T render dir c)).
    { destruct c; try discriminate; cbn [run_command].
      - apply sightless_update.
      - apply sightless_configure.
      - apply sightless_bind; [apply sightless_check|]. intros _. apply sightless_bind; [apply sightless_vault|intros; apply sightless_say].
      - apply sightless_say. }
    rewrite S in G1. rewrite S in G2. cbn [fst snd] in G1, G2. destruct G1 as [-> ->], G2 as [-> ->]. repeat split.
Qed.
Print Assumptions C79_only_the_effect_shows.

(** Two wrong passwords for the vault of the examples. *)
Example C79_effect_example : forall s, validate demo_disk (b "/v") init = Ok (s, None) ->
  same_outcome (unlock toy_crypto latin1 utc backwards demo_disk (b "/v") (b "one") s)
        (unlock toy_crypto latin1 utc backwards demo_disk (b "/v") (b "two") s).
Proof.
  intros s H. assert (E : exists s0, validate demo_disk (b "/v") init = Ok (s0, None) /\
    same_outcome (unlock toy_crypto latin1 utc backwards demo_disk (b "/v") (b "one") s0)
        (unlock toy_crypto latin1 utc backwards demo_disk (b "/v") (b "two") s0)).
  { eexists. split; [vm_compute; reflexivity|vm_compute; auto]. }
  destruct E as (s0 & E1 & E2). assert (s = s0) by congruence. subst s0. exact E2.
Qed.

(** ** Examples *)

(** Notifications are on, the period is a day, the last check was at 1641038400. *)
Definition on_settings : gmap yval :=
  [(k_vault, YStr (b "/v")); (k_timeout, YInt 1); (k_notify, YBool true); (k_period, YInt 1)].
Definition on_world1 (clock : list Z) (net : list net_reply) : world :=
  MkWorld (MkDisk (([b "c"], NDir) :: ([b "lastcheck"; b "c"], NFile (b "1641038400") 420) ::
     ([config_file; b "c"], NFile (match y_print toy_yaml on_settings with Some s => s | None => [] end) 420)
     :: d_fs demo_disk) [] (fun _ => false))
    18 (Some (b "/bin/1pass")) [] net clock [] [b "freddy"] [].

Lemma on_world_settings clock net : exists cfg, settings toy_yaml (on_world1 clock net) (b "/c") cfg /\
  cfg_notify cfg = true /\ cfg_period cfg = 1%Z.
Proof.
  eexists. split; [eexists; split; [vm_compute; reflexivity|]; split; [reflexivity|vm_compute; reflexivity]|].
  split; reflexivity.
Qed.
Lemma on_world_last clock net : last_check (w_disk (on_world1 clock net)) (b "/c") 1641038400.
Proof. exists (b "1641038400"), (trim_space (b "1641038400")). split; [vm_compute; reflexivity|]. split; [apply FieldsProof.trim_space_trimmed|]. apply parse_int_numeral. vm_compute. reflexivity. Qed.

Example C59_commands_example : forall net,
  recent (on_world1 [1641124799999989999]%Z net) (b "/c") 1641124799999989999 1 /\
  due (on_world1 [1641124800000000000]%Z net) (b "/c") 1641124800000000000 1.
Proof.
  intros net. split.
  - exists 1641038400%Z. split; [apply on_world_last|]. split; vm_compute; discriminate.
  - right. exists 1641038400%Z. split; [apply on_world_last|]. split; [vm_compute; discriminate|]. split; vm_compute; discriminate.
Qed.

Example C89_example :
  let w := on_world1 [1641124800000000000; 1641124800000000001]%Z [NetBody (release (b "1.4.0")) true] in
  exists info, read_releases (release (b "1.4.0")) = Ok (Val (Some info)) /\ ui_newer info = true /\
  screen (fst (demo_process (b "/c") (CmdOverview [] (b "BB") false) w)) =
   [ announcement (b "1.4.0") ] ++ map (fun l => l ++ newline)
   [ b "Password:"; []; b "Credit Card"; dashes; b "Visa"; [];
     b "Updated: 2014-05-13 16:53:21" ++ newline ++ b "Created: 2011-03-13 07:06:41" ++ newline ++ b "Trashed: false";
     []; b "Main"; dashes; b "Pin: **********"; [] ] /\
  nothing_newer (on_world1 [] [NetBody (release (b "1.3.1")) true]).
Proof.
  cbn zeta. eexists. split; [vm_compute; reflexivity|]. split; [reflexivity|]. split; [vm_compute; reflexivity|].
  eexists. split; [vm_compute; reflexivity|]. intros info H. injection H as <-. reflexivity.
Qed.
