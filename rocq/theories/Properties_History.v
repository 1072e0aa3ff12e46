(** Commands one after another (C112).  Vaults, disks, settings, clocks, answers and the commands before are arbitrary. *)
From Verif Require Import Base Utf8 Spec_Trim GoStrings GoStringsProof FieldsProof Json Civil Crypto Path Fs FsProof Domain DomainProof Repos ItemService Session SessionProof
  World WorldProof Config Updater UpdateProof Cli CliProof CliEvents Spec_Vault Spec_Release VaultProof Toy ToyYaml ConcProof.
From Verif Require Import Properties_Layout Properties_Config Properties_Update Properties_Check Properties_Cli Properties_Show Properties_Effects Properties_Cli2
  Properties_Release Properties_End Properties_Upgrade Properties_Interrupt Properties_Offline.
From Verif Require Gui GuiProof Properties_Gui3.
Local Notation newline := World.newline.
Local Notation answer := Spec_Release.answer.

(** ** Specification *)

(** The commands that are not there to change something. *)
Definition reading (c : command) : Prop := c <> CmdUpdate /\ c <> CmdConfigure.

(** A run of the program that is not there to change something: a reading command, or the GUI from its start to any moment,
    with any keys, sizes of the terminal and moments at which the check is made. *)
Inductive runs C U tz (Y : yaml) (T : unpacker) (render : list (list bytes) -> bytes) (dir : bytes) (u u' : world) : Prop :=
| runs_command O c r : reading c -> process C U tz O Y T render dir c u = (u', r) -> runs C U tz Y T render dir u u'
| runs_gui center path width height es g r : Properties_Gui3.undisturbed es ->
    Gui.gui_process C U tz Y dir center path width height es u = (g, r) -> u' = a_world (Gui.g_app g) -> runs C U tz Y T render dir u u'.

(** The machine some time later: the program was run any number of times, each with its own keyboard, clock and server,
    each to its end or stopped at some moment. *)
Inductive later C U tz (Y : yaml) (T : unpacker) (render : list (list bytes) -> bytes) (dir : bytes) (w : world) : world -> Prop :=
| later_now : later C U tz Y T render dir w w
| later_inputs u u' : later C U tz Y T render dir w u -> w_disk u' = w_disk u -> later C U tz Y T render dir w u'
| later_run u u' : later C U tz Y T render dir w u -> runs C U tz Y T render dir u u' -> later C U tz Y T render dir w u'
| later_stopped u u' f u2 : later C U tz Y T render dir w u -> runs C U tz Y T render dir u u' ->
    happened u u' (EFs f) -> after_crash u f u2 -> later C U tz Y T render dir w u2.

(** ** Lemmas *)

Lemma walk_present f : forall es cur l, (forall k j, cur = k ++ j -> fs_get f j <> None) -> walk f cur es = Some l -> fs_get f l <> None.
Proof.
  induction es as [|e es IH]; intros cur l Hc; cbn [walk].
  - intros [= <-]. now apply (Hc [] cur).
  - destruct (negb (is_dir f cur)); [discriminate|]. destruct (bytes_eqb e [] || bytes_eqb e dot); [now apply IH|].
    destruct (bytes_eqb e dotdot).
    + apply IH. intros k j E. destruct cur as [|x cur]; [now apply (Hc k j)|]. apply (Hc (x :: k) j). cbn in *. now rewrite E.
    + destruct (fs_get f (e :: cur)) eqn:E; [|discriminate]. apply IH. intros k j Ek. destruct k as [|x k].
      * cbn in Ek. subst j. congruence.
      * cbn in Ek. injection Ek as _ Ek. now apply (Hc k j).
Qed.

(** Nothing but the file at [X] may have changed, and it may have come into being. *)
Definition around (X : loc) (D : disk) (f : fs) : Prop :=
  near X D (MkDisk f (d_cwd D) (d_unreadable D)) /\ (fs_get (d_fs D) X <> None -> fs_get f X <> None).

Section Reading.
Variables (dir : bytes) (w : world).
Hypothesis Hroot : rooted dir = true.
Hypothesis Hdir : stat (w_disk w) dir <> None.
Let X : loc := last_check_file :: place [] dir.
Hypothesis HX : is_dir (w_fs w) X = false.
Let I : fs -> Prop := around X (w_disk w).
Let J := since (w_trace w) (env w) I.

Lemma around_start : J w.
Proof. apply since_start; [reflexivity|]. split; [|auto]. now constructor. Qed.

Lemma around_dir xs ys f : split_slash dir = xs ++ ys -> I f ->
  fs_get f (lexical (if rooted dir then [] else fst (fst (fst (env w)))) xs) = None ->
  I (fs_set (lexical (if rooted dir then [] else fst (fst (fst (env w)))) xs) NDir f).
Proof.
  rewrite Hroot. intros Hs [N G] Hf. exfalso.
  assert (P := grown_present X dir Hroot eq_refl _ _ N G Hdir). unfold present, stat, resolve in P.
  destruct dir as [|c d] eqn:Ed; [now apply P|]. rewrite Hroot in P. rewrite Hs in P. cbn [d_fs] in P.
  rewrite FsProof.walk_app in P. destruct (walk f [] xs) as [l|] eqn:El; [|now apply P].
  assert (Hl := walk_lexical _ _ _ _ El). subst l. revert Hf. apply (walk_present f xs [] _); [|exact El].
  intros k j Ek. destruct k; [|discriminate]. cbn in Ek. subst j. discriminate.
Qed.

Lemma around_last f c m : I f -> I (fs_set (place (fst (fst (fst (env w)))) (join_path [dir; last_check_file])) (NFile c m) f).
Proof.
  change (fst (fst (fst (env w)))) with (d_cwd (w_disk w)).
  assert (E := place_lastcheck w dir Hroot). unfold last_check_place, check_file in E. change (b "lastcheck") with last_check_file in E. rewrite E. fold X.
  intros [N G]. split.
  - constructor; [reflexivity|reflexivity| |].
    + intros l Hl. cbn [d_fs]. rewrite fs_get_set_other by congruence. now apply (n_off _ _ _ N).
    + cbn [d_fs]. fold (w_fs w). rewrite HX. unfold is_dir. rewrite fs_get_set_same by discriminate. reflexivity.
  - intros _. rewrite fs_get_set_same by discriminate. discriminate.
Qed.

Lemma reading_around C U tz O Y T render c m : reading c -> is_available m = true ->
  J (a_world (fst (run_command C U tz O Y T render dir c (MkApp w m init)))).
Proof.
  intros [Hu Hcf] Ha.
  assert (SK : stays J (cli_check dir)) by exact (stays_check (w_trace w) (env w) I dir around_dir around_last).
  assert (SS : forall t, stays J (say t)) by (intros; apply stays_world, keeps_print).
  assert (J0 : J (a_world (MkApp w m init))) by exact around_start.
  destruct (flag_of c) as [v|] eqn:Ef.
  - rewrite (run_prepared _ _ _ _ _ _ _ _ _ v _ Ef).
    assert (F1 : first_run U Y dir (MkApp w m init) = (MkApp w m init, Ok tt)) by (unfold first_run, bind, the_conf; cbn [a_conf]; rewrite Ha; reflexivity).
    unfold prepare, bind at 1. rewrite F1. specialize (SK _ J0). destruct (cli_check dir (MkApp w m init)) as [a1 [u| |n]]; [|exact SK|exact SK].
    cbn [fst] in SK. destruct (snd (choose v a1)) as [vault| |n]; [|exact SK|exact SK].
    assert (SE : stays J (enter C U tz O vault)).
    { apply stays_bind; [apply stays_vault|].
      intros [e|]; [apply stays_bind; [apply SS|intros _; apply stays_lift]|].
      apply stays_bind; [apply SS|]. intros _. apply stays_bind; [apply stays_world, keeps_ask|]. intros p.
      apply stays_bind; [apply stays_vault|]. intros [e|]; [apply stays_bind; [apply SS|intros _; apply stays_lift]|apply stays_ret]. }
    assert (SA : forall ls, stays J (say_all ls)).
    { induction ls as [|l ls IH]; [apply stays_ret|]. apply stays_bind; [apply SS|intros _; exact IH]. }
    assert (SF : stays J (finish U tz O render c)).
    { destruct c; cbn [finish]; try apply stays_ret.
      - cbv zeta. apply stays_bind; [apply stays_vault|]. intros [x|e]; [|apply stays_bind; [apply SS|intros _; apply stays_lift]].
        apply stays_bind; [apply stays_vault|]. intros [|i l]; apply SS.
      - apply stays_bind; [apply stays_vault|]. intros [i|]; [apply SA|apply SS].
      - apply stays_bind; [apply stays_vault|]. intros [i|]; [apply SA|apply SS]. }
    exact (stays_bind J _ _ SE (fun _ => SF) a1 SK).
  - rewrite run_other by assumption. destruct c; try discriminate; try congruence.
    + assert (G : stays J (get_categories render dir)); [|now apply G].
      apply stays_bind; [exact SK|]. intros _. apply stays_bind; [apply stays_vault|intros cats; apply SS].
    + now apply (SS (b "=== " ++ app_version ++ b " ===")).
Qed.

Lemma gui_around C U tz Y center path width height es m : load_config Y (w_disk w) dir = Ok m -> is_available m = true -> Properties_Gui3.undisturbed es ->
  J (a_world (Gui.g_app (fst (Gui.gui_process C U tz Y dir center path width height es w)))).
Proof.
  intros El Ha Hu. apply (Properties_Gui3.gui_keeps J C U tz Y dir center path width height es w m El); [| |exact Hu].
  - intros m0. apply keeps_bind; [apply keeps_lift|]. intros c. exact (keeps_check (w_trace w) (env w) I dir around_dir around_last _ _).
  - intros a <-. rewrite Properties_Gui3.prelude_available by exact Ha.
    assert (SS : forall t, stays J (say t)) by (intros; apply stays_world, keeps_print).
    apply (Properties_Gui3.stays_pick _ path SS). exact around_start.
Qed.
End Reading.

Lemma place_settings w dir : rooted dir = true -> place (d_cwd (w_disk w)) (join_path [dir; config_file]) = config_file :: place [] dir.
Proof.
  intros H. rewrite place_join by (destruct dir; discriminate). unfold place. rewrite H. reflexivity.
Qed.

(** Settings, vaults and the directory of the program are later what they were. *)
Lemma later_around C U tz Y T render dir w m w' : rooted dir = true -> stat (w_disk w) dir <> None ->
  is_dir (w_fs w) (last_check_file :: place [] dir) = false ->
  load_config Y (w_disk w) dir = Ok m -> is_available m = true -> later C U tz Y T render dir w w' ->
  near (last_check_file :: place [] dir) (w_disk w) (w_disk w') /\ load_config Y (w_disk w') dir = Ok m /\
  stat (w_disk w') dir <> None /\ is_dir (w_fs w') (last_check_file :: place [] dir) = false.
Proof.
  intros Hroot Hdir HX Hl Ha H. set (X := last_check_file :: place [] dir) in *.
  assert (G : forall u u2, near X (w_disk w) (w_disk u) -> load_config Y (w_disk u) dir = Ok m -> stat (w_disk u) dir <> None -> is_dir (w_fs u) X = false ->
    near X (w_disk u) (w_disk u2) -> (fs_get (w_fs u) X <> None -> fs_get (w_fs u2) X <> None) ->
    near X (w_disk w) (w_disk u2) /\ load_config Y (w_disk u2) dir = Ok m /\ stat (w_disk u2) dir <> None /\ is_dir (w_fs u2) X = false).
  { intros u u2 N1 L1 S1 D1 N G. split; [exact (near_trans _ _ _ _ N1 N)|]. split; [|split].
    - rewrite <- L1. unfold load_config. destruct (near_stat X (w_disk u) (w_disk u2) (join_path [dir; config_file]) N) as [-> ->]; [|reflexivity].
      rewrite (place_settings u dir Hroot). unfold X. intros E. injection E as E. discriminate E.
    - exact (grown_present X dir Hroot eq_refl _ _ N G S1).
    - rewrite <- D1. symmetry. exact (n_dir _ _ _ N). }
  assert (P : forall u u', load_config Y (w_disk u) dir = Ok m -> stat (w_disk u) dir <> None -> is_dir (w_fs u) X = false ->
    runs C U tz Y T render dir u u' -> since (w_trace u) (env u) (around X (w_disk u)) u').
  { intros u u' L1 S1 D1 [O c r Hc E|center path width height es g r Hu E ->].
    - rewrite process_run, L1 in E.
      assert (u' = a_world (fst (run_command C U tz O Y T render dir c (MkApp u m init)))) by congruence. subst u'.
      now apply reading_around.
    - assert (Eg : g = fst (Gui.gui_process C U tz Y dir center path width height es u)) by now rewrite E.
      rewrite Eg. now apply gui_around with m. }
  induction H as [|u u' H (N & L & S & D) E|u u' H (N & L & S & D) E|u u' f u2 H (N & L & S & D) E Hf Hcr].
  - split; [apply near_refl|]. auto.
  - unfold w_fs in *. rewrite E. auto.
  - assert (K := P u u' L S D E). destruct K as (Ev & [K1 K2] & _).
    assert (Ed : w_disk u' = MkDisk (w_fs u') (d_cwd (w_disk u)) (d_unreadable (w_disk u))).
    { unfold env in Ev. injection Ev as E1 E2 _ _. rewrite <- E1, <- E2. unfold w_fs. now destruct (w_disk u'). }
    apply (G u u'); auto. rewrite Ed. exact K1.
  - assert (K := P u u' L S D E). apply since_ever in K. destruct K as [_ K]. destruct (K f Hf) as [K1 K2].
    unfold after_crash in Hcr. apply (G u u2); auto; [rewrite Hcr; exact K1|unfold w_fs; rewrite Hcr; exact K2].
Qed.

(** ** C112 *)

(** Whatever runs of commands and of the GUI there were in between, to their end or not: a command later does and shows what it does and shows now. *)
Theorem C112_same_later : forall C U tz O Y T render dir c w cfg m w' w1 r1 w2 r2,
  shows c -> load_config Y (w_disk w) dir = Ok m -> is_available m = true -> get_config m = Ok cfg ->
  rooted dir = true -> stat (w_disk w) dir <> None -> is_dir (w_fs w) (last_check_place w dir) = false ->
  (forall vault, opens c m vault -> plain_path vault /\ place (d_cwd (w_disk w)) vault <> last_check_place w dir) ->
  later C U tz Y T render dir w w' -> w_pass w' = w_pass w -> proper_answer w -> proper_answer w' ->
  process C U tz O Y T render dir c w = (w1, r1) -> process C U tz O Y T render dir c w' = (w2, r2) ->
  r1 = r2 /\
  exists note note' shown, notice w note /\ notice w' note' /\
    screen w1 = screen w ++ note ++ shown /\ screen w2 = screen w' ++ note' ++ shown.
Proof.
  intros C U tz O Y T render dir c w cfg m w' w1 r1 w2 r2 Hc Hl Ha Hg Hroot Hdir HX Hv Hlat Hpass Hp Hp' H1 H2.
  assert (EX := place_lastcheck w dir Hroot). rewrite EX in *. set (X := last_check_file :: place [] dir) in *.
  destruct (later_around C U tz Y T render dir w m w' Hroot Hdir HX Hl Ha Hlat) as (N & Hl' & Hdir' & _). fold X in N.
  rewrite process_run, Hl in H1. rewrite process_run, Hl' in H2.
  destruct (check_proper dir w m init cfg Hg Hroot Hdir Hp) as (u1 & note & K1 & N1 & P1 & S1 & Q1).
  destruct (check_proper dir w' m init cfg Hg Hroot Hdir' Hp') as (u2 & note' & K2 & N2 & P2 & S2 & Q2).
  destruct (command_same C U tz O Y T render dir c w m cfg X Hc Hg Ha eq_refl) as (out & r & R).
  { intros vault Ho. destruct (Hv vault Ho) as [A B]. split; [now apply plain_path_meta|exact B]. }
  destruct (R w u1 K1 N1 P1) as (A1 & A2 & _).
  destruct (R w' u2 K2 (near_trans _ _ _ _ N N2) ltac:(congruence)) as (B1 & B2 & _).
  assert (W1 : w1 = a_world (fst (run_command C U tz O Y T render dir c (MkApp w m init)))) by congruence.
  assert (W2 : w2 = a_world (fst (run_command C U tz O Y T render dir c (MkApp w' m init)))) by congruence.
  split; [congruence|]. exists note, note', out. split; [exact Q1|]. split; [exact Q2|].
  rewrite W1, W2, A2, B2, S1, S2. split; now rewrite app_assoc.
Qed.
Print Assumptions C112_same_later.

(** A command meets the release 1.4.0 and is stopped while it writes the time of the check: the file is left empty.  Then the GUI is
    started and left.  The same command later, without a connection, shows the same. *)
Definition history_world : world := on_world1 [1641124800000000000; 1641124800000000001]%Z [NetBody (release (b "1.4.0")) true].
Definition history_command : command := CmdList [] (b " LOGIN ") (b "M") false.
Definition history_cut : fs := nth 10 (moments (fst (demo_process (b "/c") history_command history_world))) [].
Local Notation history_stopped := (set_disk (MkDisk history_cut [] (fun _ => false)) (on_world1 [] [])).
Local Notation history_gui := (Gui.gui_process toy_crypto latin1 utc toy_yaml (b "/c") (fun _ _ => []) [] 80 24 [(forwards, Gui.Press Gui.KDown)] history_stopped).
Local Notation history_later := (set_disk (w_disk (a_world (Gui.g_app (fst history_gui)))) (on_world1 [1641211200000000000]%Z [])).

(** Generic facts, so that the worlds need not be computed. *)
Lemma later_example C U tz O Y T render dir c w f es center path width height f0 cwd unr clock : reading c -> w_trace w = [] ->
  In f (moments (fst (process C U tz O Y T render dir c w))) -> Properties_Gui3.undisturbed es -> w_disk w = MkDisk f0 cwd unr ->
  let stopped := set_disk (MkDisk f cwd unr) (on_world1 [] []) in
  later C U tz Y T render dir w
    (set_disk (w_disk (a_world (Gui.g_app (fst (Gui.gui_process C U tz Y dir center path width height es stopped))))) (on_world1 clock [])).
Proof.
  intros Hc Ht Hf Hu Hd stopped.
  apply (later_inputs _ _ _ _ _ _ _ _ (a_world (Gui.g_app (fst (Gui.gui_process C U tz Y dir center path width height es stopped))))); [|reflexivity].
  apply (later_run _ _ _ _ _ _ _ _ stopped).
  - apply (later_stopped _ _ _ _ _ _ _ _ w (fst (process C U tz O Y T render dir c w)) f); [apply later_now| | |unfold after_crash; now rewrite Hd].
    + apply (runs_command _ _ _ _ _ _ _ _ _ O c (snd (process C U tz O Y T render dir c w))); [exact Hc|apply surjective_pairing].
    + eexists. rewrite Ht. split; [symmetry; apply app_nil_r|].
      unfold moments in Hf. apply in_flat_map in Hf. destruct Hf as (e & He & Hf). destruct e; try contradiction. destruct Hf as [->|[]]. exact He.
  - apply (runs_gui _ _ _ _ _ _ _ _ _ center path width height es (fst (Gui.gui_process C U tz Y dir center path width height es stopped))
      (snd (Gui.gui_process C U tz Y dir center path width height es stopped))); [exact Hu|apply surjective_pairing|reflexivity].
Qed.

Lemma history_in : In history_cut (moments (fst (process toy_crypto latin1 utc forwards toy_yaml demo_tar (fun rows => concat (concat rows)) (b "/c") history_command history_world))).
Proof. apply nth_In. apply Nat.ltb_lt. vm_compute. reflexivity. Qed.

Lemma history_is_later : later toy_crypto latin1 utc toy_yaml demo_tar (fun rows => concat (concat rows)) (b "/c") history_world history_later.
Proof.
  apply (later_example toy_crypto latin1 utc forwards toy_yaml demo_tar (fun rows => concat (concat rows)) (b "/c") history_command history_world history_cut
    [(forwards, Gui.Press Gui.KDown)] (fun _ _ => []) [] 80 24 (w_fs history_world) [] (fun _ => false)).
  - split; discriminate.
  - reflexivity.
  - exact history_in.
  - repeat constructor.
  - reflexivity.
Qed.

Example C112_example :
  let shown := [b "Password:" ++ newline; b "lp.uidcategorytitle1AALoginMail" ++ newline] in
  later toy_crypto latin1 utc toy_yaml demo_tar (fun rows => concat (concat rows)) (b "/c") history_world history_later /\
  is_dir (w_fs history_world) (last_check_place history_world (b "/c")) = false /\
  fs_get (w_fs history_later) [b "lastcheck"; b "c"] = Some (NFile [] 420) /\ w_pass history_later = w_pass history_world /\
  screen (fst (demo_process (b "/c") history_command history_world)) = [announcement (b "1.4.0")] ++ shown /\
  screen (fst (demo_process (b "/c") history_command history_later)) = shown.
Proof.
  cbv zeta. split; [|split; [|split; [|split; [|split]]]].
  - exact history_is_later.
  - vm_compute. reflexivity.
  - vm_compute. reflexivity.
  - reflexivity.
  - vm_compute. reflexivity.
  - vm_compute. reflexivity.
Qed.
