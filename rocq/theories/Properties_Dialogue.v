(** What the dialogue of configure shows (C109).  Settings, answers and histories are arbitrary. *)
From Verif Require Import Base Utf8 Spec_Trim Spec_Numeral GoStrings GoStringsProof Json Civil Crypto Path Fs FsProof Domain DomainProof Repos Session SessionProof
  World WorldProof Config Updater UpdateProof Cli CliProof CliEvents Toy ToyYaml.
From Verif Require Import Properties_Config Properties_Cli Properties_Show.
Local Notation newline := World.newline.

(** ** Specification *)

(** The questions that are asked when the settings are [c], each with the value that is in effect; the path of the vault is
    asked for only if the user wants to change it. *)
Definition questions (c : config) (path_asked : bool) (timeout period : bytes) : list bytes :=
  (if path_asked then [b "     Default OPVault path (" ++ cfg_vault c ++ b "): "] else []) ++
  [ b "  2. Update notifications? (" ++ (if cfg_notify c then b "y" else b "n") ++ b ") [y - for yes/n - for no]: ";
    b "  3. Update HTTP timeout in seconds (" ++ timeout ++ b ") [1-30]: ";
    b "  4. How often check for updates in days (" ++ period ++ b ") [0-365]: " ].

(** ** Lemmas *)

Lemma numeral_any z : numeral (itoa z) z.
Proof.
  unfold itoa. destruct (Z.ltb_spec z 0).
  - exists (dec_of_N (Z.to_N (- z))), (Z.to_N (- z)). split; [apply usual_dec|]. right. split; [reflexivity|lia].
  - exists (dec_of_N (Z.to_N z)), (Z.to_N z). split; [apply usual_dec|]. left. split; [auto|lia].
Qed.

Lemma does_screen {A} (m : act A) a : does (fun _ => True) m -> exists t, screen (a_world (fst (m a))) = screen (a_world a) ++ t.
Proof.
  intros H. destruct (H a) as (t & E & _). unfold screen. rewrite E, flat_map_app, rev_app_distr. eauto.
Qed.

Lemma screen_stdin r w : screen (set_stdin r w) = screen w.
Proof. reflexivity. Qed.

Lemma saved_screen Y dir c a a' : save_now Y dir c a = (a', Ok tt) -> exists t, screen (a_world a') = screen (a_world a) ++ t.
Proof.
  intros H. destruct (does_screen (save_now Y dir c) a) as (t & E).
  { apply does_save_now; auto. }
  rewrite H in E. eauto.
Qed.

Lemma prints t a a' x : on_world (print t) a = (a', Ok x) ->
  screen (a_world a') = screen (a_world a) ++ [t] /\ w_stdin (a_world a') = w_stdin (a_world a) /\ a_conf a' = a_conf a.
Proof. unfold on_world, print. intros [= <- <-]. cbn [a_world a_conf]. split; [apply screen_event|]. split; reflexivity. Qed.

Lemma says t a a' x : say t a = (a', Ok x) ->
  screen (a_world a') = screen (a_world a) ++ [t ++ newline] /\ w_stdin (a_world a') = w_stdin (a_world a) /\ a_conf a' = a_conf a.
Proof. apply prints. Qed.

Lemma scans a a' s : on_world scan a = (a', Ok s) ->
  screen (a_world a') = screen (a_world a) /\ s = fst (scanln (w_stdin (a_world a))) /\ a_conf a' = a_conf a.
Proof. unfold on_world, scan. destruct (scanln (w_stdin (a_world a))) as [t r]. intros [= <- <-]. cbn [a_world a_conf]. split; [apply screen_stdin|]. split; reflexivity. Qed.

Lemma interview_screen U Y dir c a a' : unicode_ok U -> get_config (a_conf a) = Ok c -> interview U Y dir a = (a', Ok tt) ->
  exists before after, screen (a_world a') = screen (a_world a) ++ before ++
    questions c (if in_dec (list_eq_dec ascii_dec) (fst (scanln (w_stdin (a_world a)))) [b "y"; b "Y"] then true else false)
      (itoa (cfg_timeout c)) (itoa (cfg_period c)) ++ after.
Proof.
  intros HU Hc H. unfold interview in H.
  apply bind_ok in H. destruct H as (a1 & c1 & H1 & H). unfold config_now, the_conf, lift, bind in H1. rewrite Hc in H1.
  assert (a1 = a) by congruence. assert (c1 = c) by congruence. subst a1 c1. clear H1.
  apply bind_ok in H. destruct H as (a2 & ? & H1 & H). apply says in H1. destruct H1 as (S2 & I2 & _).
  apply bind_ok in H. destruct H as (a3 & ? & H1 & H). apply says in H1. destruct H1 as (S3 & I3 & _).
  apply bind_ok in H. destruct H as (a4 & ? & H1 & H). apply prints in H1. destruct H1 as (S4 & I4 & _).
  apply bind_ok in H. destruct H as (a5 & confirm & H1 & H). apply scans in H1. destruct H1 as (S5 & I5 & _).
  rewrite I4, I3, I2 in I5. rewrite <- I5.
  apply bind_ok in H. destruct H as (a6 & vault & H1 & H).
  assert (S6 : screen (a_world a6) = screen (a_world a5) ++
    if in_dec (list_eq_dec ascii_dec) confirm [b "y"; b "Y"] then [b "     Default OPVault path (" ++ cfg_vault c ++ b "): "] else []).
  { rewrite (yes_branch U confirm _ _ HU) in H1. destruct (in_dec _ _ _) as [Hi|Hi].
    - apply bind_ok in H1. destruct H1 as (a7 & ? & H1 & H2). apply prints in H1. destruct H1 as (T1 & _).
      apply bind_ok in H2. destruct H2 as (a8 & ? & H1 & H2). apply scans in H1. destruct H1 as (T2 & _).
      unfold ret in H2. assert (a6 = a8) by congruence. congruence.
    - unfold ret in H1. assert (a6 = a5) by congruence. subst a6. now rewrite app_nil_r. }
  clear H1. apply bind_ok in H. destruct H as (a7 & t & H1 & H).
  assert (a7 = a6 /\ t = if cfg_notify c then b "y" else b "n") as [-> ->].
  { assert (E : lv_text (lv_from_value (cfg_notify c)) = Ok (if cfg_notify c then b "y" else b "n")) by (destruct (cfg_notify c); reflexivity).
    rewrite E in H1. unfold lift in H1. split; congruence. }
  clear H1.
  apply bind_ok in H. destruct H as (a8 & ? & H1 & H). apply prints in H1. destruct H1 as (S8 & _).
  apply bind_ok in H. destruct H as (a9 & ns & H1 & H). apply scans in H1. destruct H1 as (S9 & _). cbv zeta in H.
  apply bind_ok in H. destruct H as (a10 & ? & H1 & H). apply prints in H1. destruct H1 as (S10 & _).
  apply bind_ok in H. destruct H as (a11 & ts & H1 & H). apply scans in H1. destruct H1 as (S11 & _).
  apply bind_ok in H. destruct H as (a12 & ? & H1 & H). apply prints in H1. destruct H1 as (S12 & _).
  apply bind_ok in H. destruct H as (a13 & ps & H1 & H). apply scans in H1. destruct H1 as (S13 & _).
  apply bind_ok in H. destruct H as (a14 & [] & H1 & H). apply saved_screen in H1. destruct H1 as (z & S14).
  apply says in H. destruct H as (S15 & _).
  rewrite S15, S14, S13, S12, S11, S10, S9, S8, S6, S5, S4, S3, S2. rewrite <- !app_assoc. cbn [Datatypes.app].
  eexists [_; _; _]. eexists. cbn [Datatypes.app]. f_equal. f_equal. f_equal. f_equal.
  unfold questions. destruct (in_dec _ _ _); cbn [Datatypes.app]; reflexivity.
Qed.

(** ** C109 *)

(** A run of configure that succeeds: the questions show the settings that are in effect, those of the file or the defaults,
    whatever the update check showed before and whatever is answered. *)
Theorem C109_settings_shown : forall C U tz O Y T render dir w w' m c, unicode_ok U ->
  load_config Y (w_disk w) dir = Ok m -> get_config m = Ok c ->
  process C U tz O Y T render dir CmdConfigure w = (w', Ok tt) ->
  exists before asked timeout period after, numeral timeout (cfg_timeout c) /\ numeral period (cfg_period c) /\
    screen w' = screen w ++ before ++ questions c asked timeout period ++ after /\
    (forall q1 rest, word q1 -> w_stdin w = typed [q1] ++ rest -> (asked = true <-> In (utf8_encode q1) [b "y"; b "Y"])).
Proof.
  intros C U tz O Y T render dir w w' m c HU Hl Hc H. unfold process in H. rewrite Hl in H. cbn [run_command] in H.
  rewrite configure_eq in H. destruct (bind _ _ _) as [a r] eqn:E in H. assert (r = Ok tt) by congruence. assert (a_world a = w') by congruence. subst r w'. clear H.
  apply bind_ok in E. destruct E as (a1 & [] & H1 & H2).
  destruct (aside_ok _ _ _ _ (aside_check dir) H1) as (K1 & K2 & K3 & _). cbn [a_world a_conf a_vault] in K1, K2, K3.
  destruct (does_screen (cli_check dir) (MkApp w m init)) as (notice & S1); [apply does_check; auto|]. rewrite H1 in S1. cbn [fst a_world] in S1.
  assert (Hc1 : get_config (a_conf a1) = Ok c) by (rewrite K1; exact Hc).
  destruct (interview_screen U Y dir c a1 a HU Hc1 H2) as (before & after & S2).
  exists (notice ++ before). eexists. exists (itoa (cfg_timeout c)), (itoa (cfg_period c)), after.
  split; [apply numeral_any|]. split; [apply numeral_any|]. split.
  - rewrite S2, S1. rewrite <- !app_assoc. reflexivity.
  - intros q1 rest Hq Hin. assert (Ei : w_stdin (a_world a1) = w_stdin w) by congruence. rewrite Ei, Hin.
    unfold typed. cbn [flat_map]. rewrite app_nil_r, <- app_assoc. cbn [Datatypes.app]. rewrite scanln_line by now apply word_no_space. cbn [fst].
    match goal with |- context [in_dec ?d ?x ?l] => destruct (in_dec d x l) as [Hi|Hi] end; split; intros X; [exact Hi|reflexivity|discriminate X|contradiction].
Qed.
Print Assumptions C109_settings_shown.

Example C109_example :
  let r := demo_configure (typed [map vb (b "y"); map vb (b "/n"); []; map vb (b "31"); map vb (b "7")]) in
  load_config toy_yaml (w_disk (world_with quiet_fs [])) (b "/c") = Ok (Some quiet_settings) /\
  get_config (Some quiet_settings) = Ok (MkConfig 5 false 1 (b "/v")) /\ snd r = Ok tt /\
  (exists before after, screen (fst r) = before ++ questions (MkConfig 5 false 1 (b "/v")) true (b "5") (b "1") ++ after) /\
  word (map vb (b "y")).
Proof.
  split; [vm_compute; reflexivity|]. split; [vm_compute; reflexivity|]. split; [vm_compute; reflexivity|]. split.
  - eexists [_; _; _]. eexists [_]. vm_compute. reflexivity.
  - repeat constructor.
Qed.
