(** What the commands do to disk and network (C78-C80), and what list shows (C81). *)
From Verif Require Import Base Utf8 GoStrings GoStringsProof Json Civil Crypto Path Fs FsProof Domain DomainProof Repos
  Session World WorldProof Config Updater UpdateProof Cli CliProof CliEvents
  Spec_Vault Toy ToyYaml Properties_Layout Properties_Config Properties_Update Properties_Check Properties_Cli Properties_Show.

Local Notation newline := World.newline.

(** ** C78 *)

(** Whatever it meets, no command but update ever changes a file other than the settings and the time of
    the last check. *)
Theorem C78_only_own_files : forall C U tz O Y T render dir c w w' r,
  dir <> [] -> c <> CmdUpdate -> process C U tz O Y T render dir c w = (w', r) ->
  ever w w' (same_but [last_check_place w dir; settings_place w dir] (w_fs w)).
Proof.
  intros C U tz O Y T render dir c w w' r Hdir Hc H. rewrite process_run in H.
  destruct (load_config Y (w_disk w) dir) as [m| |n].
  2,3: assert (w' = w) by congruence; subst w'; split; [apply same_start|intros f Hx; now apply happened_same in Hx].
  assert (Hw : w' = a_world (fst (run_command C U tz O Y T render dir c (MkApp w m init)))) by congruence. clear H. subst w'.
  apply since_ever. set (ps := [last_check_place w dir; settings_place w dir]). set (I := same_but ps (w_fs w)).
  set (J := since (w_trace w) (env w) I).
  assert (J0 : J (a_world (MkApp w m init))) by (apply since_start; [reflexivity|apply same_start]).
  assert (I_dir : forall xs ys f, split_slash dir = xs ++ ys -> I f ->
    fs_get f (lexical (if rooted dir then [] else fst (fst (fst (env w)))) xs) = None ->
    I (fs_set (lexical (if rooted dir then [] else fst (fst (fst (env w)))) xs) NDir f)) by (intros; apply same_dir; assumption).
  assert (I_conf : forall f c0 m0, I f -> I (fs_set (place (fst (fst (fst (env w)))) (join_path [dir; config_file])) (NFile c0 m0) f)).
  { intros f c0 m0 Hf. apply same_set; [right; now left|exact Hf]. }
  assert (I_last : forall f c0 m0, I f -> I (fs_set (place (fst (fst (fst (env w)))) (join_path [dir; last_check_file])) (NFile c0 m0) f)).
  { intros f c0 m0 Hf. apply same_set; [now left|exact Hf]. }
  assert (SP := stays_prepare (w_trace w) (env w) I Y U dir I_dir I_conf I_last).
  assert (SC := stays_configure (w_trace w) (env w) I Y U dir I_dir I_conf I_last).
  assert (SK := stays_check (w_trace w) (env w) I dir I_dir I_last).
  assert (SS : forall t, stays J (say t)) by (intros; apply stays_world, keeps_print).
  revert J0. generalize (MkApp w m init). intros a J0. destruct (flag_of c) as [v|] eqn:Ef.
  - rewrite (run_vault_command _ _ _ _ _ _ _ _ _ v _ Ef).
    assert (SE : forall vault, stays J (enter C U tz O vault)).
    { intros vault. apply stays_bind; [apply stays_vault|].
      intros [e|]; [apply stays_bind; [apply SS|intros _; apply stays_lift]|].
      apply stays_bind; [apply SS|]. intros _. apply stays_bind; [apply stays_world, keeps_ask|]. intros p.
      apply stays_bind; [apply stays_vault|]. intros [e|]; [apply stays_bind; [apply SS|intros _; apply stays_lift]|apply stays_ret]. }
    assert (SA : forall ls, stays J (say_all ls)).
    { induction ls as [|l ls IH]; [apply stays_ret|]. apply stays_bind; [apply SS|intros _; exact IH]. }
    assert (SF : stays J (finish U tz O render c)).
    { destruct c; cbn [finish]; try apply stays_ret.
      - cbv zeta. apply stays_bind; [apply stays_vault|]. intros [x|e]; [|apply stays_bind; [apply SS|intros _; apply stays_lift]].
        apply stays_bind; [apply stays_vault|]. intros [|i l]; apply SS.
      - apply stays_bind; [apply stays_vault|]. intros [i|]; [apply SA|apply SS].
      - apply stays_bind; [apply stays_vault|]. intros [i|]; [apply SA|apply SS]. }
    assert (SO : stays J (open_vault C U tz O Y dir v)).
    { intros a0 H0. rewrite open_vault_eq. refine (stays_bind J _ _ SP _ a0 H0). intros _.
      apply stays_bind; [intros a1 H1; rewrite choose_eq; exact H1|intros vault; apply SE]. }
    exact (stays_bind J _ _ SO (fun _ => SF) a J0).
  - rewrite run_other by assumption. destruct c; try discriminate; try (now elim Hc).
    + now apply SC.
    + assert (G : stays J (get_categories render dir)); [|now apply G].
      apply stays_bind; [exact SK|]. intros _. apply stays_bind; [apply stays_vault|intros cats; apply SS].
    + now apply (SS (b "=== " ++ app_version ++ b " ===")).
Qed.
Print Assumptions C78_only_own_files.

(** With settings that exist and have notifications off, reading commands change nothing at all. *)
Theorem C78_readers_write_nothing : forall C U tz O Y T render dir c w w' r m cfg,
  c <> CmdUpdate -> c <> CmdConfigure -> load_config Y (w_disk w) dir = Ok m -> get_config m = Ok cfg -> cfg_notify cfg = false ->
  process C U tz O Y T render dir c w = (w', r) ->
  w_disk w' = w_disk w /\ forall f, ~ happened w w' (EFs f).
Proof.
  intros C U tz O Y T render dir c w w' r m cfg Hc1 Hc2 Hm Hcfg Hn H. rewrite process_run, Hm in H.
  set (a := MkApp w m init) in *.
  assert (Hsc : cli_check dir a = (a, Ok tt)) by (apply (silent_check dir a cfg); assumption).
  assert (G : exists m' : act unit, run_command C U tz O Y T render dir c a = m' a /\ calm m' /\ does enters m').
  { destruct (flag_of c) as [v|] eqn:Ef.
    - exists (vault <- choose v ;; enter C U tz O vault ;;; finish U tz O render c)%st. split; [|split].
      + rewrite (run_prepared _ _ _ _ _ _ _ _ _ v _ Ef). unfold prepare, bind at 1, first_run, bind at 1, the_conf.
        change (is_available (a_conf a)) with (is_available m). rewrite (not_available_notify _ _ Hcfg Hn). unfold ret at 1. rewrite Hsc.
        unfold bind at 2. rewrite choose_eq. cbn [snd].
        destruct v; [|reflexivity]. destruct (get_config (a_conf a)); reflexivity.
      + apply calm_bind; [intros a0; rewrite choose_eq; split; reflexivity|]. intros vault.
        apply calm_bind; [apply calm_enter|intros _; apply calm_finish].
      + apply does_bind; [intros a0; rewrite choose_eq; exists []; split; [reflexivity|constructor]|]. intros vault.
        apply does_bind; [apply does_enter|]. intros _ a0. destruct (does_finish U tz O render c a0) as (t & E & Ht).
        exists t. split; [exact E|]. eapply Forall_impl; [|exact Ht]. intros e He. now right.
    - rewrite run_other by assumption. destruct c; try discriminate; try (now elim Hc1); try (now elim Hc2).
      + eexists. split; [unfold get_categories, bind at 1; rewrite Hsc; reflexivity|]. split.
        * apply calm_bind; [apply calm_vault|intros; apply calm_say].
        * apply does_bind; [apply does_vault|]. intros cats. apply does_say. intros t. now right.
      + exists (say (b "=== " ++ app_version ++ b " ===")). split; [reflexivity|]. split; [apply calm_say|].
        apply does_say. intros t. now right. }
  destruct G as (m' & E & G1 & G2).
  assert (Hw : w' = a_world (fst (m' a))) by congruence. rewrite Hw. split; [apply G1|].
  intros f Hf. assert (D := does_happened enters m' a (EFs f) G2 Hf). destruct D as [D|D]; [discriminate|exact D].
Qed.
Print Assumptions C78_readers_write_nothing.

Example C78_example :
  let w := vault_world (b "/v") [b "freddy"] in
  let r := demo_process (b "/c") (CmdDetails [] (b "AA") false) w in
  snd r = Ok tt /\ length (screen (fst r)) = 16 /\
  exists m cfg, load_config toy_yaml (w_disk w) (b "/c") = Ok m /\ get_config m = Ok cfg /\ cfg_notify cfg = false.
Proof.
  cbn zeta. split; [vm_compute; reflexivity|]. split; [vm_compute; reflexivity|].
  eexists. eexists. split; [vm_compute; reflexivity|]. split; vm_compute; reflexivity.
Qed.

(** ** C79 *)

(** Events outside of the terminal. *)
Definition leaves (e : ev) : bool := match e with EFs _ | EGet _ | EStage _ => true | _ => false end.

Lemma emits_update (P : ev -> Prop) C T stage : (forall e, e <> EAsk -> P e) -> emits P (update C T stage).
Proof.
  intros H w. rewrite update_stages. revert w. apply emits_bind; [apply emits_fetch, H; discriminate|].
  intros [[info|]|e]; try apply emits_ret. destruct (negb (ui_newer info)); [apply emits_ret|].
  apply run_stages_emits; [intros; apply H; discriminate|intros; apply H; discriminate|].
  apply steps_emit; intros; apply H; discriminate.
Qed.

Lemma does_update (P : ev -> Prop) C U T dir : (forall e, e <> EAsk -> P e) -> does P (run_update C U T dir).
Proof.
  intros H. assert (Hs : forall t, does P (say t)) by (intros t; apply does_say; intros; apply H; discriminate).
  apply does_bind; [apply Hs|]. intros _. apply does_bind; [apply does_conf|]. intros m.
  apply does_bind; [apply does_world, emits_facade_check; intros; apply H; discriminate|].
  intros [info|e]; [|apply does_bind; [apply Hs|intros _; apply does_lift]].
  apply does_bind; [apply Hs|]. intros _. apply does_bind; [apply does_print; intros; apply H; discriminate|]. intros _.
  apply does_bind; [apply does_scan|]. intros answer.
  assert (Ab : does P (say (b "Aborting update...") ;;; @os_exit app unit 1)%st) by (apply does_bind; [apply Hs|intros _; apply does_lift]).
  destruct (lv_from_name U answer) as [v|e]; [|exact Ab]. destruct (lv_value v); [|exact Ab].
  apply does_bind; [apply Hs|]. intros _. apply does_bind.
  - apply does_world. apply emits_bind; [apply emits_lift|]. intros c. now apply emits_update.
  - intros [e|]; [apply does_bind; [apply Hs|intros _; apply does_lift]|apply Hs].
Qed.

Lemma does_not_ask C U tz O Y T render dir c : flag_of c = None -> does not_ask (run_command C U tz O Y T render dir c).
Proof.
  intros Hf. assert (Po : forall t, not_ask (EOut t)) by (intros; discriminate). assert (Pf : forall f, not_ask (EFs f)) by (intros; discriminate).
  assert (Pg : not_ask (EGet github_releases)) by discriminate.
  destruct c; try discriminate; cbn [run_command].
  - apply does_update. intros e He. exact He.
  - now apply does_configure.
  - apply does_bind; [now apply does_check|]. intros _. apply does_bind; [apply does_vault|intros; now apply does_say].
  - now apply does_say.
Qed.

(** When the password has been typed, the program only writes to the screen: it sends nothing and stores
    nothing.  It is asked for at most once. *)
Theorem C79_nothing_leaves_after_password : forall C U tz O Y T render dir c w w' r before after,
  process C U tz O Y T render dir c w = (w', r) ->
  w_trace w' = after ++ EAsk :: before ++ w_trace w ->
  Forall is_out after /\ ~ In EAsk before.
Proof.
  intros C U tz O Y T render dir c w w' r before after H Ht. rewrite process_run in H.
  assert (Len : forall (x : list ev) y, x ++ y :: before ++ w_trace w <> w_trace w).
  { intros x y E. apply (f_equal (@length ev)) in E. rewrite app_length in E. cbn [length] in E. rewrite app_length in E. lia. }
  destruct (load_config Y (w_disk w) dir) as [m| |n].
  2,3: assert (w' = w) by congruence; subst w'; exfalso; symmetry in Ht; now apply Len in Ht.
  set (a := MkApp w m init) in *. assert (Hw : w' = a_world (fst (run_command C U tz O Y T render dir c a))) by congruence. clear H.
  assert (Ht0 : w_trace w' = (after ++ EAsk :: before) ++ w_trace w) by (rewrite Ht, <- app_assoc; reflexivity). clear Ht.
  destruct (flag_of c) as [v|] eqn:Ef.
  2:{ exfalso. destruct (does_not_ask C U tz O Y T render dir c Ef a) as (t & E & Pt). rewrite <- Hw, Ht0 in E.
      apply app_inv_tail in E. subst t. apply Forall_app in Pt. destruct Pt as [_ Pt]. inversion Pt as [|x y Hx Hy]. now apply Hx. }
  rewrite (run_prepared _ _ _ _ _ _ _ _ _ v _ Ef) in Hw.
  assert (D : does not_ask (prepare U Y dir)) by (apply does_prepare; intros; discriminate). specialize (D a).
  destruct (prepare U Y dir a) as [a1 rp]. cbn [fst] in D. destruct D as (t & E & Pt).
  assert (No : w' = a_world a1 -> False).
  { intros ->. rewrite E in Ht0. apply app_inv_tail in Ht0. subst t. apply Forall_app in Pt. destruct Pt as [_ Pt].
    inversion Pt as [|x y Hx Hy]. now apply Hx. }
  destruct rp as [u| |n]; [|elim No; exact Hw|elim No; exact Hw].
  rewrite choose_eq in Hw. cbn [snd] in Hw. set (vp := vault_path v (a_conf a1)) in *.
  assert (Hw' : w' = a_world (fst ((enter C U tz O vp ;;; finish U tz O render c)%st a1))).
  { destruct v; [|exact Hw]. destruct (get_config (a_conf a1)); [exact Hw|elim No; exact Hw|elim No; exact Hw]. }
  clear Hw. unfold bind in Hw'. rewrite enter_eq in Hw'.
  assert (Split : forall t1 t2, Forall is_out t1 -> w_trace w' = t1 ++ EAsk :: t2 ++ w_trace w -> Forall not_ask t2 -> Forall is_out after /\ ~ In EAsk before).
  { intros t1 t2 P1 E1 P2. rewrite Ht0 in E1. rewrite app_comm_cons, app_assoc in E1. apply app_inv_tail in E1.
    clear - P1 P2 E1. revert t1 P1 E1. induction after as [|x after IH]; intros t1 P1 E1.
    - destruct t1 as [|y t1].
      + cbn [Datatypes.app] in E1. assert (before = t2) by congruence. subst t2. split; [constructor|]. rewrite Forall_forall in P2. intros Hi. now apply (P2 _ Hi).
      + exfalso. inversion P1; subst. cbn [Datatypes.app] in E1. assert (y = EAsk) by congruence. subst y. contradiction.
    - destruct t1 as [|y t1].
      + exfalso. cbn [Datatypes.app] in E1. assert (after ++ EAsk :: before = t2) by congruence. subst t2.
        apply Forall_app in P2. destruct P2 as [_ P2]. inversion P2 as [|z u Hz Hu]. now apply Hz.
      + inversion P1; subst. cbn [Datatypes.app] in E1. assert (x = y) by congruence. assert (after ++ EAsk :: before = t1 ++ EAsk :: t2) by congruence.
        subst y. destruct (IH t1) as [X1 X2]; auto. }
  assert (Asked : forall w1, w_trace (after_ask (add_event (EOut (b "Password:" ++ newline)) w1)) = EAsk :: EOut (b "Password:" ++ newline) :: w_trace w1).
  { intros w1. unfold after_ask, ask_password. cbn [w_pass add_event]. destruct (w_pass w1); reflexivity. }
  assert (Ntw : forall t2, t2 = EOut (b "Password:" ++ newline) :: t -> Forall not_ask t2) by (intros t2 ->; constructor; [discriminate|exact Pt]).
  destruct (validate (w_disk (a_world a1)) vp (a_vault a1)) as [[s1 [e|]]| |n]; cbv beta iota zeta in Hw'.
  - exfalso. cbn [fst a_world] in Hw'. rewrite Hw' in Ht0. cbn [add_event w_trace] in Ht0. rewrite E in Ht0.
    rewrite app_comm_cons in Ht0. apply app_inv_tail in Ht0.
    assert (Q : Forall not_ask (after ++ EAsk :: before)) by (rewrite <- Ht0; constructor; [discriminate|exact Pt]).
    apply Forall_app in Q. destruct Q as [_ Q]. inversion Q as [|z u0 Hz Hu]. now apply Hz.
  - destruct (unlock C U tz O (w_disk (a_world a1)) vp (typed_pass (a_world a1)) s1) as [[s2 [e|]]| |n]; cbv beta iota zeta in Hw'.
    + refine (Split [EOut (err_text e ++ newline)] _ _ _ (Ntw _ eq_refl)); [repeat constructor|].
      rewrite Hw'. cbn [fst a_world add_event w_trace]. rewrite Asked, E. reflexivity.
    + set (a2 := MkApp _ _ s2) in Hw'. destruct (does_finish U tz O render c a2) as (t1 & E1 & P1).
      refine (Split t1 _ P1 _ (Ntw _ eq_refl)). rewrite Hw', E1. unfold a2. cbn [a_world]. rewrite Asked, E. reflexivity.
    + refine (Split [] _ _ _ (Ntw _ eq_refl)); [constructor|]. rewrite Hw'. cbn [fst a_world]. rewrite Asked, E. reflexivity.
    + refine (Split [] _ _ _ (Ntw _ eq_refl)); [constructor|]. rewrite Hw'. cbn [fst a_world]. rewrite Asked, E. reflexivity.
  - elim No. exact Hw'.
  - elim No. exact Hw'.
Qed.
Print Assumptions C79_nothing_leaves_after_password.

Example C79_example : exists before after,
  w_trace (fst (demo_process (b "/c") (CmdDetails [] (b "AA") false) (vault_world (b "/v") [b "freddy"]))) =
    after ++ EAsk :: before ++ w_trace (vault_world (b "/v") [b "freddy"]) /\ length after = 15.
Proof. eexists [_]. eexists [_;_;_;_;_;_;_;_;_;_;_;_;_;_;_]. split; vm_compute; reflexivity. Qed.

(** The password has no influence on what is done outside of the terminal. *)
Definition blind {A} (m : io A) : Prop := forall w ps, m (set_pass ps w) = (set_pass ps (fst (m w)), snd (m w)).

Lemma blind_ret {A} (x : A) : blind (ret x).
Proof. intros w ps. reflexivity. Qed.
Lemma blind_lift {A} (x : res A) : blind (lift x).
Proof. intros w ps. reflexivity. Qed.
Lemma blind_bind {A B} (m : io A) (k : A -> io B) : blind m -> (forall x, blind (k x)) -> blind (bind m k).
Proof.
  intros Hm Hk w ps. unfold bind. rewrite Hm. destruct (m w) as [w1 [x| |n]]; cbn [fst snd]; [apply Hk|reflexivity|reflexivity].
Qed.
Lemma blind_change g : blind (change g).
Proof. intros w ps. unfold change. cbn [w_faults set_pass]. destruct (w_faults w) as [|[n|] fl]; reflexivity. Qed.
Lemma append_blind l data : forall w ps, append_bytes l data (set_pass ps w) = set_pass ps (append_bytes l data w).
Proof.
  induction data as [|c data IH]; intros w ps; cbn [append_bytes]; [reflexivity|].
  change (w_fs (set_pass ps w)) with (w_fs w). destruct (fs_get (w_fs w) l) as [[old m|]|]; try apply IH.
  change (put_fs (fs_set l (NFile (old ++ [c]) m) (w_fs w)) (set_pass ps w)) with
    (set_pass ps (put_fs (fs_set l (NFile (old ++ [c]) m) (w_fs w)) w)). apply IH.
Qed.
Lemma blind_write l data : blind (write_bytes l data).
Proof.
  intros w ps. unfold write_bytes. cbn [w_faults set_pass]. destruct (w_faults w) as [|[n|] fl]; cbn [fst snd].
  - now rewrite append_blind.
  - change (set_faults fl (set_pass ps w)) with (set_pass ps (set_faults fl w)). now rewrite append_blind.
  - change (set_faults fl (set_pass ps w)) with (set_pass ps (set_faults fl w)). now rewrite append_blind.
Qed.
Lemma blind_open p perm : blind (open_trunc p perm).
Proof.
  intros w ps. unfold open_trunc. change (w_disk (set_pass ps w)) with (w_disk w). change (w_fs (set_pass ps w)) with (w_fs w).
  destruct (resolve_new (w_disk w) p) as [l|]; [|reflexivity]. change (w_umask (set_pass ps w)) with (w_umask w).
  destruct (fs_get (w_fs w) l) as [[c m|]|]; [|reflexivity|]; apply blind_bind; try apply blind_change; intros ok; apply blind_ret.
Qed.
Lemma blind_write_file p data perm : blind (write_file p data perm).
Proof. apply blind_bind; [apply blind_open|]. intros [l|]; [apply blind_write|apply blind_ret]. Qed.
Lemma blind_make_dirs ls : blind (make_dirs ls).
Proof. induction ls as [|l ls IH]; [apply blind_ret|]. apply blind_bind; [apply blind_change|]. intros [|]; [exact IH|apply blind_ret]. Qed.
Lemma blind_mkdir p : blind (mkdir_all p).
Proof.
  intros w ps. unfold mkdir_all. destruct p as [|c p]; [reflexivity|]. change (w_disk (set_pass ps w)) with (w_disk w). change (w_fs (set_pass ps w)) with (w_fs w).
  destruct (missing_dirs _ _ _) as [ls|]; [apply blind_make_dirs|reflexivity].
Qed.
Lemma blind_stat p : blind (io_stat p).
Proof. intros w ps. reflexivity. Qed.
Lemma blind_read p : blind (io_read p).
Proof. intros w ps. reflexivity. Qed.
Lemma blind_now : blind now.
Proof. intros w ps. unfold now. cbn [w_clock set_pass]. destruct (w_clock w); reflexivity. Qed.
Lemma blind_http u : blind (http_get u).
Proof. intros w ps. unfold http_get. destruct u; [reflexivity|]. cbn [w_net set_pass]. destruct (w_net w); reflexivity. Qed.
Lemma blind_print t : blind (print t).
Proof. intros w ps. reflexivity. Qed.
Lemma blind_scan : blind scan.
Proof. intros w ps. unfold scan. cbn [w_stdin set_pass]. destruct (scanln (w_stdin w)); reflexivity. Qed.
Lemma blind_executable : blind executable.
Proof. intros w ps. reflexivity. Qed.
Lemma blind_unlink ls : blind (unlink_all ls).
Proof. induction ls as [|l ls IH]; [apply blind_ret|]. apply blind_bind; [apply blind_change|]. intros [|]; [exact IH|apply blind_ret]. Qed.
Lemma blind_remove p : blind (remove_all p).
Proof.
  intros w ps. unfold remove_all. change (w_disk (set_pass ps w)) with (w_disk w). change (w_fs (set_pass ps w)) with (w_fs w).
  destruct (resolve (w_disk w) p); [apply blind_unlink|reflexivity].
Qed.
Lemma blind_rename p q : blind (rename p q).
Proof.
  intros w ps. unfold rename. change (w_disk (set_pass ps w)) with (w_disk w). change (w_fs (set_pass ps w)) with (w_fs w).
  destruct (resolve (w_disk w) p) as [l|], (resolve_new (w_disk w) q) as [k|]; try reflexivity.
  destruct (fs_get (w_fs w) l) as [[c m|]|], (fs_get (w_fs w) k) as [[c' m'|]|]; try reflexivity;
    destruct (loc_eqb l k); try reflexivity; apply blind_change.
Qed.
Lemma blind_save p data whole : blind (save_stream p data whole).
Proof. apply blind_bind; [apply blind_open|]. intros [l|]; [|apply blind_ret]. apply blind_bind; [apply blind_write|intros; apply blind_ret]. Qed.
Lemma blind_download p u : blind (download p u).
Proof. apply blind_bind; [apply blind_http|]. intros [|body c]; [apply blind_ret|apply blind_save]. Qed.
Lemma blind_entries dst es proper : blind (extract_entries dst es proper).
Proof.
  induction es as [|e es IH]; cbn [extract_entries]; [apply blind_ret|]. destruct (e_regular e); [|exact IH].
  apply blind_bind; [apply blind_save|]. intros [|]; [exact IH|apply blind_ret].
Qed.
Lemma blind_extract T src dst : blind (extract T src dst).
Proof.
  apply blind_bind; [apply blind_read|]. intros [s|]; [|apply blind_ret]. destruct (T s) as [[es proper]|]; [apply blind_entries|apply blind_ret].
Qed.
Lemma blind_replace src : blind (replace_binary src).
Proof. apply blind_bind; [apply blind_executable|]. intros [e|]; [apply blind_rename|apply blind_ret]. Qed.
Lemma blind_validate C x y : blind (validate_checksum C x y).
Proof.
  apply blind_bind; [apply blind_read|]. intros [text|]; [|apply blind_ret]. apply blind_bind; [apply blind_read|].
  intros [data|]; [|apply blind_ret]. destruct (fields _); [apply blind_lift|apply blind_ret].
Qed.
Lemma blind_fetch : blind fetch_info.
Proof. apply blind_bind; [apply blind_http|]. intros [|body [|]]; try apply blind_ret. apply blind_lift. Qed.
Lemma blind_timestamp dir : blind (check_timestamp dir).
Proof.
  apply blind_bind; [apply blind_now|]. intros t. apply blind_bind; [apply blind_stat|]. intros d.
  apply blind_bind; [destruct d; [apply blind_ret|apply blind_mkdir]|]. intros _.
  apply blind_bind; [apply blind_write_file|intros; apply blind_ret].
Qed.
Lemma blind_check p force dir : blind (check_for_update p force dir).
Proof.
  apply blind_bind.
  { destruct force; [apply blind_ret|]. apply blind_bind; [apply blind_stat|]. intros s. apply blind_bind; [apply blind_read|].
    intros c. destruct (parse_int _) as [z fine]. apply blind_bind; [apply blind_now|]. intros t. apply blind_ret. }
  intros [|]; [|apply blind_ret]. cbn [negb]. apply blind_bind; [apply blind_fetch|].
  intros [[info|]|e]; [| |apply blind_ret]; (apply blind_bind; [apply blind_timestamp|intros; apply blind_ret]).
Qed.
Lemma blind_step1 : blind step1.
Proof.
  apply blind_bind; [apply blind_remove|]. intros [|]; [|apply blind_ret]. apply blind_bind; [apply blind_mkdir|intros; apply blind_ret].
Qed.
Lemma blind_as_step m : blind m -> blind (as_step m).
Proof. intros H. apply blind_bind; [exact H|intros; apply blind_ret]. Qed.
Lemma blind_run stage l : Forall (fun ns => blind (snd ns)) l -> blind (run_stages stage l).
Proof.
  induction 1 as [|[n s] l Hs _ IH]; cbn [run_stages]; [apply blind_ret|].
  apply blind_bind; [intros w ps; reflexivity|]. intros _. apply blind_bind; [exact Hs|]. intros [e|]; [apply blind_ret|exact IH].
Qed.
Lemma blind_update C T stage : blind (update C T stage).
Proof.
  intros w ps. rewrite !update_stages. revert w ps. apply (blind_bind fetch_info); [apply blind_fetch|].
  intros [[info|]|e]; try apply blind_ret. destruct (negb (ui_newer info)); [apply blind_ret|].
  apply blind_run. unfold steps.
  repeat (apply Forall_cons; [cbn [snd]|]); try apply Forall_nil.
  - apply blind_step1.
  - apply blind_as_step, blind_download.
  - apply blind_as_step, blind_download.
  - apply blind_as_step, blind_extract.
  - apply blind_validate.
  - apply blind_as_step, blind_replace.
  - apply blind_as_step, blind_remove.
Qed.
Lemma blind_save_config Y dir c m : blind (save_config Y dir c m).
Proof.
  apply blind_bind; [apply blind_lift|]. intros m'. destruct (y_print Y m'); [|apply blind_lift].
  apply blind_bind; [apply blind_stat|]. intros d. apply blind_bind; [destruct d; [apply blind_ret|apply blind_mkdir]|]. intros _.
  apply blind_bind; [apply blind_write_file|]. intros [|]; [|apply blind_lift]. intros w ps. reflexivity.
Qed.

Definition repass (ps : list bytes) (a : app) : app := MkApp (set_pass ps (a_world a)) (a_conf a) (a_vault a).
Definition sightless {A} (m : act A) : Prop := forall a ps, m (repass ps a) = (repass ps (fst (m a)), snd (m a)).

Lemma sightless_ret {A} (x : A) : sightless (ret x).
Proof. intros a ps. reflexivity. Qed.
Lemma sightless_lift {A} (x : res A) : sightless (lift x).
Proof. intros a ps. reflexivity. Qed.
Lemma sightless_conf : sightless the_conf.
Proof. intros a ps. reflexivity. Qed.
Lemma sightless_vault {A} (f : disk -> state -> res (state * A)) : sightless (on_vault f).
Proof.
  intros a ps. unfold on_vault. cbn [repass a_world a_conf a_vault]. change (w_disk (set_pass ps (a_world a))) with (w_disk (a_world a)).
  destruct (f (w_disk (a_world a)) (a_vault a)) as [[s x]| |n]; reflexivity.
Qed.
Lemma sightless_world {A} (m : io A) : blind m -> sightless (on_world m).
Proof. intros H a ps. rewrite !on_world_eq. cbn [repass a_world a_conf a_vault]. rewrite H. reflexivity. Qed.
Lemma sightless_bind {A B} (m : act A) (k : A -> act B) : sightless m -> (forall x, sightless (k x)) -> sightless (bind m k).
Proof.
  intros Hm Hk a ps. unfold bind. rewrite Hm. destruct (m a) as [a1 [x| |n]]; cbn [fst snd]; [apply Hk|reflexivity|reflexivity].
Qed.
Lemma sightless_say t : sightless (say t).
Proof. apply sightless_world, blind_print. Qed.
Lemma sightless_config_now : sightless config_now.
Proof. apply sightless_bind; [apply sightless_conf|intros; apply sightless_lift]. Qed.
Lemma sightless_check dir : sightless (cli_check dir).
Proof.
  apply sightless_bind; [apply sightless_config_now|]. intros c. destruct (cfg_notify c); [|apply sightless_ret].
  apply sightless_bind; [apply sightless_conf|]. intros m. apply sightless_bind.
  - apply sightless_world. apply blind_bind; [apply blind_lift|intros; apply blind_check].
  - intros [info|e]; [apply sightless_say|apply sightless_ret].
Qed.
Lemma sightless_save_now Y dir c : sightless (save_now Y dir c).
Proof.
  intros a ps. unfold save_now. cbn [repass a_world a_conf a_vault]. rewrite blind_save_config.
  destruct (save_config Y dir c (a_conf a) (a_world a)) as [w [m| |n]]; reflexivity.
Qed.
Lemma sightless_configure U Y dir : sightless (configure U Y dir).
Proof.
  assert (Hp : forall t, sightless (on_world (print t))) by (intros; apply sightless_world, blind_print).
  assert (Hsc : sightless (on_world scan)) by apply sightless_world, blind_scan.
  rewrite configure_eq. apply sightless_bind; [apply sightless_check|]. intros _. unfold interview.
  apply sightless_bind; [apply sightless_config_now|]. intros c.
  apply sightless_bind; [apply sightless_say|]. intros _. apply sightless_bind; [apply sightless_say|]. intros _.
  apply sightless_bind; [apply Hp|]. intros _. apply sightless_bind; [exact Hsc|]. intros confirm.
  apply sightless_bind.
  { destruct (lv_from_name U confirm) as [v|e]; [|apply sightless_ret]. destruct (lv_value v); [|apply sightless_ret].
    apply sightless_bind; [apply Hp|]. intros _. apply sightless_bind; [exact Hsc|]. intros s. apply sightless_ret. }
  intros vault. apply sightless_bind; [apply sightless_lift|]. intros t. apply sightless_bind; [apply Hp|]. intros _.
  apply sightless_bind; [exact Hsc|]. intros ns. cbv zeta. apply sightless_bind; [apply Hp|]. intros _.
  apply sightless_bind; [exact Hsc|]. intros ts. apply sightless_bind; [apply Hp|]. intros _.
  apply sightless_bind; [exact Hsc|]. intros xs. apply sightless_bind; [apply sightless_save_now|]. intros _. apply sightless_say.
Qed.
Lemma sightless_prepare U Y dir : sightless (prepare U Y dir).
Proof.
  apply sightless_bind; [|intros _; apply sightless_check].
  apply sightless_bind; [apply sightless_conf|]. intros m. destruct (is_available m); [apply sightless_ret|].
  apply sightless_bind; [apply sightless_say|]. intros _. apply sightless_bind; [apply sightless_say|]. intros _.
  apply sightless_bind; [apply sightless_configure|]. intros _. apply sightless_say.
Qed.
Lemma sightless_update C U T dir : sightless (run_update C U T dir).
Proof.
  apply sightless_bind; [apply sightless_say|]. intros _. apply sightless_bind; [apply sightless_conf|]. intros m.
  apply sightless_bind; [apply sightless_world, blind_bind; [apply blind_lift|intros; apply blind_check]|].
  intros [info|e]; [|apply sightless_bind; [apply sightless_say|intros _; apply sightless_lift]].
  apply sightless_bind; [apply sightless_say|]. intros _. apply sightless_bind; [apply sightless_world, blind_print|]. intros _.
  apply sightless_bind; [apply sightless_world, blind_scan|]. intros answer.
  assert (Ab : sightless (say (b "Aborting update...") ;;; @os_exit app unit 1)%st) by (apply sightless_bind; [apply sightless_say|intros _; apply sightless_lift]).
  destruct (lv_from_name U answer) as [v|e]; [|exact Ab]. destruct (lv_value v); [|exact Ab].
  apply sightless_bind; [apply sightless_say|]. intros _. apply sightless_bind.
  - apply sightless_world. apply blind_bind; [apply blind_lift|]. intros c. apply blind_update.
  - intros [e|]; [apply sightless_bind; [apply sightless_say|intros _; apply sightless_lift]|apply sightless_say].
Qed.

Lemma leaves_terminal t tr : Forall enters t -> filter leaves (t ++ tr) = filter leaves tr.
Proof.
  induction 1 as [|e t He _ IH]; [reflexivity|]. cbn [Datatypes.app filter].
  destruct He as [->|He]; [exact IH|]. destruct e; try contradiction. exact IH.
Qed.

(** What a process requests and writes does not depend on the password. *)
Theorem C79_password_leaves_no_trace : forall C U tz O Y T render dir c w ps qs,
  let w1 := fst (process C U tz O Y T render dir c (set_pass ps w)) in
  let w2 := fst (process C U tz O Y T render dir c (set_pass qs w)) in
  w_disk w1 = w_disk w2 /\ filter leaves (w_trace w1) = filter leaves (w_trace w2).
Proof.
  intros C U tz O Y T render dir c w ps qs. cbv zeta. rewrite !process_run.
  change (w_disk (set_pass ps w)) with (w_disk w). change (w_disk (set_pass qs w)) with (w_disk w).
  destruct (load_config Y (w_disk w) dir) as [m| |n]; [|split; reflexivity|split; reflexivity]. cbn [fst].
  set (a := MkApp w m init).
  change (MkApp (set_pass ps w) m init) with (repass ps a). change (MkApp (set_pass qs w) m init) with (repass qs a).
  set (Q := fun p => w_disk (a_world p) = w_disk (a_world (fst (prepare U Y dir a))) /\
    filter leaves (w_trace (a_world p)) = filter leaves (w_trace (a_world (fst (prepare U Y dir a))))).
  destruct (flag_of c) as [v|] eqn:Ef.
  - assert (G : forall xs, Q (fst (run_command C U tz O Y T render dir c (repass xs a)))).
    { intros xs. rewrite (run_prepared _ _ _ _ _ _ _ _ _ v _ Ef). rewrite (sightless_prepare U Y dir a xs).
      unfold Q. destruct (prepare U Y dir a) as [a1 [u| |n]]; cbn [fst snd]; [|split; reflexivity|split; reflexivity].
      rewrite choose_eq. cbn [snd]. set (vp := vault_path v (a_conf (repass xs a1))).
      assert (E : w_disk (a_world (fst ((enter C U tz O vp ;;; finish U tz O render c)%st (repass xs a1)))) = w_disk (a_world a1) /\
        filter leaves (w_trace (a_world (fst ((enter C U tz O vp ;;; finish U tz O render c)%st (repass xs a1))))) = filter leaves (w_trace (a_world a1))).
      { assert (K : calm (enter C U tz O vp ;;; finish U tz O render c)%st) by (apply calm_bind; [apply calm_enter|intros; apply calm_finish]).
        split; [exact (proj2 (K (repass xs a1)))|].
        assert (D : does enters (enter C U tz O vp ;;; finish U tz O render c)%st).
        { apply does_bind; [apply does_enter|]. intros _ a0. destruct (does_finish U tz O render c a0) as (t & E & Ht).
          exists t. split; [exact E|]. eapply Forall_impl; [|exact Ht]. intros e He. now right. }
        destruct (D (repass xs a1)) as (t & E & Ht). rewrite E. now apply leaves_terminal. }
      destruct v; [|exact E]. destruct (get_config (a_conf (repass xs a1))); [exact E|split; reflexivity|split; reflexivity]. }
    destruct (G ps) as [G1 G2], (G qs) as [G3 G4]. split; congruence.
  - assert (S : sightless (run_command C U tz O Y T render dir c)).
    { destruct c; try discriminate; cbn [run_command].
      - apply sightless_update.
      - apply sightless_configure.
      - apply sightless_bind; [apply sightless_check|]. intros _. apply sightless_bind; [apply sightless_vault|intros; apply sightless_say].
      - apply sightless_say. }
    rewrite !S. cbn [fst]. split; reflexivity.
Qed.
Print Assumptions C79_password_leaves_no_trace.

(** ** C80 *)

(** A request is answered from the head of the list. *)
Lemma fetch_head w w2 : hd_error (w_net w2) = hd_error (w_net w) -> snd (fetch_info w2) = snd (fetch_info w).
Proof.
  intros H. unfold fetch_info, bind, http_get. change github_releases with releases_url.
  assert (E : exists c u, releases_url = c :: u) by (eexists; eexists; reflexivity). destruct E as (c & u & ->).
  destruct (w_net w) as [|x rest], (w_net w2) as [|y rest2]; try discriminate H; [reflexivity|].
  cbn [hd_error] in H. assert (x = y) by congruence. subst y. destruct x as [|body [|]]; reflexivity.
Qed.

Lemma check_net p dir w r rest : w_net w = r :: rest -> w_net (fst (check_for_update p true dir w)) = rest.
Proof.
  intros H. unfold check_for_update, bind at 1, ret at 1. cbn [negb]. unfold bind at 1.
  assert (E : w_net (fst (fetch_info w)) = rest).
  { unfold fetch_info, bind, http_get. change github_releases with releases_url.
    assert (E : exists c u, releases_url = c :: u) by (eexists; eexists; reflexivity). destruct E as (c & u & ->).
    rewrite H. destruct r as [|body [|]]; reflexivity. }
  assert (O : forall w1, w_net (fst (check_timestamp dir w1)) = w_net w1).
  { intros w1. unfold check_timestamp, now. set (w2 := fst (match w_clock w1 with t :: ts => (set_clock ts w1, @Ok Z t) | [] => (w1, Ok 0%Z) end)).
    assert (Ow : offline (fun w => (d <- io_stat dir ;; (match d with None => mkdir_all dir | Some _ => ret true end) ;;;
       write_file (join_path [dir; last_check_file]) (itoa ((match w_clock w1 with t :: _ => t | [] => 0%Z end) / 1000000000)%Z) 420 ;;; ret tt)%st w)).
    { apply offline_bind; [intros w3; reflexivity|]. intros d. apply offline_bind; [destruct d; [apply offline_ret|apply offline_mkdir]|].
      intros _. apply offline_bind; [|intros _; apply offline_ret]. unfold write_file.
      apply offline_bind; [apply offline_open|]. intros [l|]; [apply offline_write|apply offline_ret]. }
    assert (Ow2 := Ow w2). unfold bind at 1. destruct (w_clock w1) as [|t ts] eqn:Ec.
    - exact Ow2.
    - cbn [fst] in w2. etransitivity; [exact Ow2|reflexivity]. }
  destruct (fetch_info w) as [w1 [[[info|]|e]| |n]]; cbn [fst] in E; try exact E;
    unfold bind; specialize (O w1); destruct (check_timestamp dir w1) as [w2 [u| |n]]; cbn [fst] in O; unfold ret; cbn [fst]; congruence.
Qed.

(** If the server's second answer is like the first, everything downloaded belongs to the release the
    user was asked about. *)
Lemma confirmed_release : forall C U tz O Y T render dir w w' r answer rest info,
  w_net w = answer :: answer :: rest -> snd (fetch_info w) = Ok (Val (Some info)) ->
  process C U tz O Y T render dir CmdUpdate w = (w', r) ->
  forall u, happened w w' (EGet u) -> In u [releases_url; ui_archive info; ui_checksum info].
Proof.
  intros C U tz O Y T render dir w w' r answer rest info Hnet Hinfo H u Hh. rewrite process_run in H.
  destruct (load_config Y (w_disk w) dir) as [m| |n].
  2,3: assert (w' = w) by congruence; subst w'; now apply happened_same in Hh.
  cbn [run_command] in H. assert (Hw' : w' = a_world (fst (run_update C U T dir (MkApp w m init)))) by congruence. clear H.
  set (P := fun e => match e with EGet u => In u [releases_url; ui_archive info; ui_checksum info] | _ => True end).
  set (Q := fun p : app * res unit => exists t, w_trace (a_world (fst p)) = t ++ w_trace w /\ Forall P t).
  assert (G : Q (run_update C U T dir (MkApp w m init))).
  { clear Hw' Hh. unfold run_update, bind at 1. change (say ?t (MkApp w m init)) with (MkApp (add_event (EOut (t ++ newline)) w) m init, @Ok unit tt).
    cbv iota. set (w1 := add_event _ w). unfold bind at 1, the_conf. cbn [a_conf].
    unfold bind at 1, on_world at 1, facade_check, bind at 1, lift. cbn [a_world].
    assert (T1 : exists t, w_trace w1 = t ++ w_trace w /\ Forall P t).
    { eexists [_]. split; [reflexivity|repeat constructor]. }
    destruct (get_config m) as [c| |n]; try exact T1.
    assert (He : emits P (check_for_update (cfg_period c) true dir)).
    { apply emits_check; intros; try exact Logic.I. now left. }
    assert (Hnet1 : w_net w1 = answer :: answer :: rest) by exact Hnet.
    assert (Hn := check_net (cfg_period c) dir w1 _ _ Hnet1). specialize (He w1).
    destruct (check_for_update (cfg_period c) true dir w1) as [w2 rr]. cbn [fst a_world a_conf a_vault] in *.
    assert (T2 : exists t, w_trace w2 = t ++ w_trace w /\ Forall P t).
    { destruct T1 as (t1 & E1 & P1), He as (t2 & E2 & P2). exists (t2 ++ t1). split; [rewrite E2, E1; apply app_assoc|]. apply Forall_app. auto. }
    destruct rr as [[i|e]| |n]; try exact T2.
    2:{ destruct T2 as (t & E & Pt). eexists (_ :: t). split; [cbn; rewrite E; reflexivity|]. constructor; [exact Logic.I|exact Pt]. }
    assert (Rest : forall k : act unit, (forall a, hd_error (w_net (a_world a)) = Some answer -> exists t, w_trace (a_world (fst (k a))) = t ++ w_trace (a_world a) /\ Forall P t) ->
      forall a, w_net (a_world a) = answer :: rest -> (exists t, w_trace (a_world a) = t ++ w_trace w /\ Forall P t) -> Q (k a)).
    { intros k Hk a Ha (t & E & Pt). destruct (Hk a) as (t2 & E2 & P2); [now rewrite Ha|]. exists (t2 ++ t). split; [rewrite E2, E; apply app_assoc|].
      apply Forall_app. auto. }
    revert T2. change w2 with (a_world (MkApp w2 m init)) at 1. revert Hn. change (w_net w2) with (w_net (a_world (MkApp w2 m init))).
    generalize (MkApp w2 m init). intros a Ha Ta. revert a Ha Ta. apply Rest. clear Rest.
    assert (Ps : forall t, does P (say t)) by (intros t; apply does_say; intros; exact Logic.I).
    intros a Ha.
    assert (Step : forall (k : act unit) t, (forall a, hd_error (w_net (a_world a)) = Some answer -> exists t, w_trace (a_world (fst (k a))) = t ++ w_trace (a_world a) /\ Forall P t) ->
      forall a, hd_error (w_net (a_world a)) = Some answer -> exists t', w_trace (a_world (fst ((on_world (print t) ;;; k)%st a))) = t' ++ w_trace (a_world a) /\ Forall P t').
    { intros k t Hk a0 Ha0. unfold bind. change (on_world (print t) a0) with (MkApp (add_event (EOut t) (a_world a0)) (a_conf a0) (a_vault a0), @Ok unit tt).
      cbv iota. destruct (Hk (MkApp (add_event (EOut t) (a_world a0)) (a_conf a0) (a_vault a0)) Ha0) as (t2 & E2 & P2).
      exists (t2 ++ [EOut t]). split; [rewrite E2; cbn [a_world add_event w_trace]; now rewrite <- app_assoc|]. apply Forall_app. split; [exact P2|repeat constructor]. }
    revert a Ha. apply Step. apply Step. intros a Ha. unfold bind at 1.
    unfold on_world at 1, scan. destruct (scanln (w_stdin (a_world a))) as [ans rest'].
    assert (Ha' : hd_error (w_net (a_world (MkApp (set_stdin rest' (a_world a)) (a_conf a) (a_vault a)))) = Some answer) by exact Ha.
    change (w_trace (a_world a)) with (w_trace (a_world (MkApp (set_stdin rest' (a_world a)) (a_conf a) (a_vault a)))).
    revert Ha'. generalize (MkApp (set_stdin rest' (a_world a)) (a_conf a) (a_vault a)). clear a Ha.
    assert (Ab : forall a, hd_error (w_net (a_world a)) = Some answer -> exists t, w_trace (a_world (fst ((say (b "Aborting update...") ;;; @os_exit app unit 1)%st a))) = t ++ w_trace (a_world a) /\ Forall P t).
    { intros a _. refine (does_bind P _ _ (Ps _) _ a). intros _. apply does_lift. }
    destruct (lv_from_name U ans) as [v|e]; [|exact Ab]. destruct (lv_value v); [|exact Ab]. clear Ab.
    apply Step. intros a Ha. unfold bind at 1. unfold on_world at 1, facade_update, bind at 1, lift.
    assert (Eu : exists t, w_trace (fst (update C T stage_text (a_world a))) = t ++ w_trace (a_world a) /\ Forall P t).
    { rewrite update_stages. unfold bind at 1. assert (Ef := emits_fetch P (or_introl eq_refl) (a_world a)).
      assert (Es : snd (fetch_info (a_world a)) = Ok (Val (Some info))) by (rewrite <- Hinfo; apply fetch_head; rewrite Ha, Hnet; reflexivity).
      destruct (fetch_info (a_world a)) as [w3 r3]. cbn [fst snd] in *. subst r3. destruct (negb (ui_newer info)); [exact Ef|].
      assert (Em : emits P (run_stages stage_text (steps C T info))).
      { apply run_stages_emits; try (intros; exact Logic.I). apply steps_emit; [intros; exact Logic.I|right; now left|right; right; now left]. }
      destruct (Em w3) as (t2 & E2 & P2), Ef as (t1 & E1 & P1). exists (t2 ++ t1). split; [rewrite E2, E1; apply app_assoc|]. apply Forall_app. auto. }
    destruct (get_config m) as [c'| |n]; [|exists []; split; [reflexivity|constructor]|exists []; split; [reflexivity|constructor]].
    destruct (update C T stage_text (a_world a)) as [w4 r4]. cbn [fst] in Eu. destruct Eu as (t1 & E1 & P1).
    destruct r4 as [[e|]| |n]; [| |exists t1; split; assumption|exists t1; split; assumption].
    - destruct (does_bind P (say (err_text e)) (fun _ => os_exit 1) (Ps _) (fun _ => does_lift P (@Exit unit 1)) (MkApp w4 (a_conf a) (a_vault a))) as (t2 & E2 & P2).
      exists (t2 ++ t1). cbn [a_world] in E2. split; [rewrite E2, E1; apply app_assoc|]. apply Forall_app. auto.
    - destruct (Ps (b "1pass application updated to version " ++ ui_version i) (MkApp w4 (a_conf a) (a_vault a))) as (t2 & E2 & P2).
      exists (t2 ++ t1). cbn [a_world] in E2. split; [rewrite E2, E1; apply app_assoc|]. apply Forall_app. auto. }
  destruct G as (t & Et & Pt). rewrite Hw' in Hh. apply (happened_in _ _ _ _ Et) in Hh. rewrite Forall_forall in Pt. exact (Pt _ Hh).
Qed.

(** The server is asked twice, before and after the user's consent, and may answer differently: then another
    release is installed than the user was asked about, and the report names the wrong version. *)
Definition later_release : bytes :=
  b "[{""tag_name"":""1.9.0"",""body"":""n"",""assets"":[{""name"":""1pass.tar.gz"",""browser_download_url"":""u:later""},{""name"":""1pass.md5"",""browser_download_url"":""u:sum""}]}]".
Definition changing : world :=
  cli_world [NetBody demo_release true; NetBody later_release true; NetBody (b "tgz") true; NetBody demo_sum true] (b "y" ++ newline).

Lemma confirmed_changes : exists w w' info,
  snd (fetch_info w) = Ok (Val (Some info)) /\ ui_version info = b "1.4.0" /\
  demo_process (b "/c") CmdUpdate w = (w', Ok tt) /\
  happened w w' (EGet (b "u:later")) /\ ~ happened w w' (EGet (ui_archive info)) /\
  read_file (w_disk w) (b "/bin/1pass") = Some (b "old") /\ read_file (w_disk w') (b "/bin/1pass") = Some (b "new") /\
  In (b "1pass application updated to version 1.4.0" ++ newline) (screen w').
Proof.
  exists changing. exists (fst (demo_process (b "/c") CmdUpdate changing)). eexists.
  split; [vm_compute; reflexivity|]. split; [vm_compute; reflexivity|]. split; [vm_compute; reflexivity|].
  set (w' := fst (demo_process (b "/c") CmdUpdate changing)).
  assert (E : w_trace w' = w_trace w' ++ w_trace changing) by (change (w_trace changing) with (@nil ev); symmetry; apply app_nil_r). split; [|split; [|split; [|split]]].
  - exists (w_trace w'). split; [exact E|].
    assert (G : existsb (fun e => match e with EGet u => bytes_eqb u (b "u:later") | _ => false end) (w_trace w') = true) by (vm_compute; reflexivity).
    apply existsb_exists in G. destruct G as (e & Hi & He). destruct e; try discriminate He. apply bytes_eqb_eq in He. rewrite <- He. exact Hi.
  - intros H. apply (happened_in _ _ _ _ E) in H. cbn [ui_archive] in H.
    assert (G : forallb (fun e => match e with EGet u => negb (bytes_eqb u (b "u:a")) | _ => true end) (w_trace w') = true) by (vm_compute; reflexivity).
    rewrite forallb_forall in G. specialize (G _ H). vm_compute in G. discriminate G.
  - vm_compute. reflexivity.
  - vm_compute. reflexivity.
  - assert (G : existsb (bytes_eqb (b "1pass application updated to version 1.4.0" ++ newline)) (screen w') = true) by (vm_compute; reflexivity).
    apply existsb_exists in G. destruct G as (t & Hi & He). apply bytes_eqb_eq in He. rewrite He. exact Hi.
Qed.

Example C80_example :
  let w := cli_world [NetBody demo_release true; NetBody demo_release true; NetBody (b "tgz") true; NetBody demo_sum true] (b "y" ++ newline) in
  exists info, snd (fetch_info w) = Ok (Val (Some info)) /\ ui_archive info = b "u:a" /\ snd (demo_process (b "/c") CmdUpdate w) = Ok tt.
Proof. cbn zeta. eexists. split; [vm_compute; reflexivity|]. split; vm_compute; reflexivity. Qed.
