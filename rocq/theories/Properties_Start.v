(** How the GUI starts (C102). *)
From Verif Require Import Base Utf8 Spec_Trim GoStrings FieldsProof Base64 Float64 Json Spec_Item Civil Crypto CryptoProof Path Fs Domain DomainProof Repos Session SessionProof
  World WorldProof Config Updater Cli CliProof CliEvents Spec_Vault Spec_Writer Spec_Domain VaultProof Toy ToyYaml Gui Spec_Gui GuiProof GuiRun GuiWorld.
From Verif Require Import Properties_Vault Properties_Layout Properties_Session Properties_Update Properties_Check Properties_Cli Properties_Show Properties_End Properties_Gui Properties_Gui2 Properties_Gui3.

Local Notation newline := World.newline.

Lemma pick_eq path a cfg : get_config (a_conf a) = Ok cfg ->
  pick_vault path a = (e <- on_vault (fun D s => validate D (vault_in_use path (a_conf a)) s) ;;
    match e with Some err => say (err_text err) ;;; os_exit 1 | None => ret (vault_in_use path (a_conf a)) end)%st a.
Proof.
  intros Hcfg. unfold pick_vault. unfold bind at 1.
  assert (E : (match path with [] => bind config_now (fun c => ret (cfg_vault c)) | _ => ret path end) a = (a, Ok (vault_in_use path (a_conf a)))).
  { rewrite vault_in_use_path. destruct path; [|reflexivity]. unfold config_now, bind, the_conf, lift. rewrite Hcfg. unfold ret, vault_path. now rewrite (get_config_vault _ _ Hcfg). }
  rewrite E. reflexivity.
Qed.

Lemma first_run_none U Y dir w m s : is_available m = true -> first_run U Y dir (MkApp w m s) = (MkApp w m s, Ok tt).
Proof. intros H. unfold first_run, bind, the_conf. cbn [a_conf]. now rewrite H. Qed.

(** If the path after -v, or without it the one of the settings, is not a vault, the program prints the reason and
    ends with status 1: no screen is drawn, no password can be typed, nothing else happens. *)
Theorem C102_not_a_vault : forall C U tz Y dir center path w h es world m cfg,
  load_config Y (w_disk world) dir = Ok m -> is_available m = true -> get_config m = Ok cfg ->
  ~ vault_layout (w_disk world) (vault_in_use path m) ->
  exists g msg, gui_process C U tz Y dir center path w h es world = (g, Exit 1) /\
    a_world (g_app g) = add_event (EOut (b "invalid vault (" ++ msg ++ b ")" ++ newline)) world /\
    (forall n, view_of g n = None) /\ is_unlocked (session g) = false.
Proof.
  intros C U tz Y dir center path w h es world m cfg Hm Ha Hc Hv.
  destruct (proj2 (C36_validate_exact (w_disk world) (vault_in_use path m) init) Hv) as (msg & E & _).
  eexists. exists msg. unfold gui_process. rewrite Hm, (first_run_none _ _ _ _ _ _ Ha). unfold start_gui. rewrite (pick_eq path (MkApp world m init) cfg Hc).
  unfold bind, on_vault. cbn [a_world a_conf a_vault]. rewrite E. unfold say, on_world, println, print, os_exit, lift. cbn [a_world a_conf a_vault].
  split; [reflexivity|]. split; [|split; reflexivity]. cbn [a_world g_app blank_gui err_text]. now rewrite <- !app_assoc.
Qed.
Print Assumptions C102_not_a_vault.

Example C102_not_a_vault_example :
  let w := vault_world (b "/nowhere") [] in
  (exists m cfg, load_config toy_yaml (w_disk w) (b "/c") = Ok m /\ is_available m = true /\ get_config m = Ok cfg /\ vault_in_use [] m = b "/nowhere") /\
  stat (w_disk w) (b "/nowhere") = None /\ snd (demo_gui w enter_freddy) = Exit 1.
Proof.
  split; [|split; vm_compute; reflexivity]. eexists. eexists. split; [vm_compute; reflexivity|]. split; [reflexivity|]. split; vm_compute; reflexivity.
Qed.

(** What the screen shows when the GUI has just started: the first line, the help line, an empty menu and the
    prompt, which gets what is typed.  The path is that of a vault, and nothing has been written or requested. *)
Theorem C102_asks_for_password : forall C U tz Y dir center path w h world m cfg g r,
  load_config Y (w_disk world) dir = Ok m -> is_available m = true -> get_config m = Ok cfg ->
  gui_process C U tz Y dir center path w h [] world = (g, Ok r) ->
  r = true /\ vault_layout (w_disk world) (vault_in_use path m) /\
  current g = VPrompt /\ shown g VPrompt = Some [] /\ shown g VMenu = Some [] /\
  (forall n, In n [VItems; VDetails; VError] -> view_of g n = None) /\
  is_unlocked (session g) = false /\ a_world (g_app g) = world.
Proof.
  intros C U tz Y dir center path w h world m cfg g r Hm Ha Hc Hg.
  assert (Hv : vault_layout (w_disk world) (vault_in_use path m)).
  { assert (X := fun N => C102_not_a_vault C U tz Y dir center path w h [] world m cfg Hm Ha Hc N). destruct (layout_dec (w_disk world) (vault_in_use path m)) as [L|N]; [exact L|].
    destruct (X N) as (g' & msg & E & _). rewrite Hg in E. discriminate E. }
  unfold gui_process in Hg. rewrite Hm, (first_run_none _ _ _ _ _ _ Ha) in Hg. unfold start_gui in Hg.
  assert (Ep := pick_eq path (MkApp world m init) cfg Hc). assert (Es := pick_vault_session C U tz dir center path (MkApp world m init)).
  destruct (pick_vault path (MkApp world m init)) as [a r0]. specialize (Es a r0 eq_refl (init_reachable C U tz) eq_refl). destruct Es as [Hr Hl].
  unfold bind, on_vault in Ep. cbn [a_world a_conf a_vault] in Ep.
  assert (V := proj1 (C36_validate_exact (w_disk world) (vault_in_use path m) init) Hv).
  destruct (validate (w_disk world) (vault_in_use path m) init) as [[s [e|]]| |n] eqn:E.
  - now elim (V s e).
  - unfold ret in Ep. injection Ep as -> ->. destruct (first_layout C U tz dir center _ (vault_in_use path m) w h Hr Hl) as (g0 & ok & Ey & F).
    unfold bind in Hg. rewrite Ey in Hg. destruct ok; [|discriminate Hg]. cbn [play] in Hg. unfold ret in Hg. injection Hg as -> <-.
    destruct F as (_ & F1 & F2 & F3 & F4 & _ & _ & _ & _ & _ & F5 & F6 & F7 & _).
    split; [reflexivity|]. split; [exact Hv|]. split; [exact F1|]. split; [exact F2|]. split; [exact F3|]. split.
    { intros n [<-|[<-|[<-|[]]]]; assumption. }
    split; [unfold session; rewrite F4; exact Hl|]. now rewrite F4.
  - injection Ep as -> ->. discriminate Hg.
  - injection Ep as -> ->. discriminate Hg.
Qed.
Print Assumptions C102_asks_for_password.

(** From the start of the program to the menu: with the right password the GUI shows the items of the vault after -v,
    or without it of the one in the settings, and has written and requested nothing. *)
Theorem C102_opens_the_vault : forall C U, crypto_ok C -> unicode_ok U ->
  forall tz Y dir center path w h world m cfg O O' text password ks items,
  oracles_ok O -> oracles_ok O' ->
  load_config Y (w_disk world) dir = Ok m -> is_available m = true -> get_config m = Ok cfg ->
  vault_at C U tz (w_disk world) (vault_in_use path m) password ks items -> trimmed text password -> (6 <= w)%Z -> (10 <= h)%Z ->
  exists g items' width, gui_process C U tz Y dir center path w h [(O', Typed text); (O, Press KEnter)] world = (g, Ok true) /\
    current g = VMenu /\ is_unlocked (session g) = true /\ Permutation items' items /\
    shown g VMenu = Some (menu_lines center width items') /\ a_world (g_app g) = world.
Proof.
  intros C U HC HU tz Y dir center path w h world m cfg O O' text password ks items HO HO' Hm Ha Hc Hv Ht Hw Hh.
  destruct (VaultProof.open_vault C HC U HU tz O _ _ _ _ _ init HO Hv) as (p & l' & H1 & _ & _); try reflexivity. cbv zeta in H1.
  set (s1 := MkState (Some p) None (st_keys init) (st_reg init)) in *. set (v := vault_in_use path m) in *.
  assert (Ep : pick_vault path (MkApp world m init) = (MkApp world m s1, Ok v)).
  { rewrite (pick_eq path (MkApp world m init) cfg Hc). unfold bind, on_vault. cbn [a_world a_conf a_vault]. fold v. rewrite H1. reflexivity. }
  destruct (pick_vault_session C U tz dir center path _ _ _ Ep (init_reachable C U tz) eq_refl) as [Hr Hl].
  destruct (first_layout C U tz dir center _ v w h Hr Hl) as (g0 & ok & Ey & F). destruct ok; [|lia].
  destruct F as (_ & C0 & _ & _ & A0 & V0 & W0 & H0 & _).
  assert (S0 : gui_process C U tz Y dir center path w h [] world = (g0, Ok true)).
  { unfold gui_process. rewrite Hm, (first_run_none _ _ _ _ _ _ Ha). unfold start_gui. rewrite Ep. unfold bind. rewrite Ey. reflexivity. }
  assert (R0 : running C U tz Y dir center g0) by (exists path, w, h, [], world; split; [constructor|exact S0]).
  assert (F0 : fits g0) by (unfold fits; rewrite W0, H0; auto).
  destruct (type_step C U tz Y dir center g0 O' text R0 HO' F0 C0) as (g1 & E1 & R1 & F1 & C1 & T1 & S1 & V1 & A1).
  assert (D1 : a_world (g_app g1) = world) by now rewrite A1, A0.
  destruct (C68_menu_of_stored_vault C U HC HU tz Y dir center g1 O password ks items s1 R1 HO C1 F1) as (g & items' & wd & E2 & R2 & C2 & U2 & P2 & M2 & _).
  - rewrite D1, V1, V0. exact Hv.
  - rewrite D1, V1, V0. exact H1.
  - rewrite S1. unfold session. now rewrite A0.
  - now rewrite T1.
  - exists g, items', wd. split.
    { unfold gui_process. rewrite Hm, (first_run_none _ _ _ _ _ _ Ha). unfold start_gui. rewrite Ep. unfold bind at 1. rewrite Ey. unfold ret at 1. cbn [play]. unfold bind. rewrite E1, E2. reflexivity. }
    split; [exact C2|]. split; [exact U2|]. split; [exact P2|]. split; [exact M2|].
    assert (T : there g1) by exact (gi_version _ _ _ _ _ (running_inv _ _ _ _ _ _ _ R1)).
    assert (W := step_world C U tz O dir center (Press KEnter) g1 T). cbv zeta in W. rewrite E2 in W. destruct W as (W & _). cbn [fst next_world] in W.
    change (gworld g = world). rewrite W. exact D1.
Qed.
Print Assumptions C102_opens_the_vault.

Example C102_example :
  (exists m cfg, load_config toy_yaml (w_disk (vault_world (b "/v") [])) (b "/c") = Ok m /\ is_available m = true /\ get_config m = Ok cfg /\ vault_in_use [] m = b "/v") /\
  vault_at toy_crypto latin1 utc (w_disk (vault_world (b "/v") [])) (b "/v") (b "freddy") demo_keys demo_items /\
  vault_in_use (b "/v") (Some (off_settings (b "/elsewhere"))) = b "/v".
Proof.
  split; [|split; [apply demo_at|reflexivity]]. eexists. eexists. split; [vm_compute; reflexivity|]. split; [reflexivity|]. split; vm_compute; reflexivity.
Qed.
