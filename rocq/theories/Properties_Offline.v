(** The commands and the server that is asked for updates (C111).  Vaults, disks, settings, clocks and answers are arbitrary. *)
From Verif Require Import Base Utf8 Spec_Trim GoStrings GoStringsProof FieldsProof Json Civil Crypto Path Fs FsProof Domain DomainProof Repos ItemService Session SessionProof
  World WorldProof Config Updater UpdateProof Cli CliProof CliEvents Spec_Vault Spec_Release VaultProof Toy ToyYaml ConcProof.
From Verif Require Import Properties_Layout Properties_Config Properties_Update Properties_Check Properties_Cli Properties_Show Properties_Effects Properties_Cli2
  Properties_Release Properties_End Properties_Upgrade.
Local Notation newline := World.newline.
Local Notation answer := Spec_Release.answer.

(** ** Specification *)

(** The commands that show something of a vault or of the program. *)
Definition shows (c : command) : Prop :=
  match c with CmdCategories | CmdList _ _ _ _ | CmdOverview _ _ _ | CmdDetails _ _ _ => True | _ => False end.

(** The vault the command is to open. *)
Definition opens (c : command) (m : cmap) (vault : bytes) : Prop :=
  match c with
  | CmdList v _ _ _ | CmdOverview v _ _ | CmdDetails v _ _ => vault = vault_in_use v m
  | _ => False
  end.

(** If the server answers, then not with a list that has no proper release in it. *)
Definition proper_answer (w : world) : Prop := forall body, answer w 0 body -> ~ odd_list body.

(** One line about the newer release the server offers, or nothing. *)
Definition notice (w : world) (lines : list bytes) : Prop :=
  lines = [] \/ exists body o, answer w 0 body /\ offers body o /\ newer (of_version o) /\ lines = [announcement (of_version o)].

(** The same machine without a connection. *)
Definition offline (w : world) : world := set_net [] w.

(** ** Lemmas *)

Lemma near_walk_to X D1 D2 es : near X D1 D2 -> forall cur, lexical cur es <> X -> walk (d_fs D1) cur es = walk (d_fs D2) cur es.
Proof.
  intros N. induction es as [|e es IH]; intros cur Hl; [reflexivity|]. cbn [walk lexical] in *.
  rewrite (near_is_dir _ _ _ cur N). destruct (negb (is_dir (d_fs D2) cur)); [reflexivity|].
  destruct (bytes_eqb e [] || bytes_eqb e dot); [now apply IH|]. destruct (bytes_eqb e dotdot); [now apply IH|].
  destruct (list_eq_dec (list_eq_dec Ascii.ascii_dec) (e :: cur) X) as [E|E].
  - destruct es as [|e' es]; [now elim Hl|].
    assert (A : forall n D, fs_get (d_fs D) (e :: cur) = n -> is_dir (d_fs D) (e :: cur) = is_dir (d_fs D2) (e :: cur) ->
      match n with Some _ => walk (d_fs D) (e :: cur) (e' :: es) | None => None end =
      if is_dir (d_fs D2) (e :: cur) then walk (d_fs D) (e :: cur) (e' :: es) else None).
    { intros n D En Ed. destruct n as [n|].
      - destruct (is_dir (d_fs D2) (e :: cur)) eqn:E2; [reflexivity|]. cbn [walk]. now rewrite Ed.
      - rewrite <- Ed. unfold is_dir. now rewrite En. }
    rewrite (A _ D1 eq_refl (near_is_dir _ _ _ _ N)), (A _ D2 eq_refl eq_refl). now rewrite IH.
  - rewrite (n_off _ _ _ N) by exact E. destruct (fs_get (d_fs D2) (e :: cur)); [now apply IH|reflexivity].
Qed.

Lemma near_stat X D1 D2 p : near X D1 D2 -> place (d_cwd D1) p <> X ->
  stat D1 p = stat D2 p /\ read_file D1 p = read_file D2 p.
Proof.
  intros N Hp. assert (E : resolve D1 p = resolve D2 p).
  { unfold resolve. destruct p as [|c p]; [reflexivity|]. rewrite <- (n_cwd _ _ _ N). now apply near_walk_to with X. }
  unfold stat, read_file. rewrite <- E. destruct (resolve D1 p) as [l|] eqn:El; [|auto].
  apply resolve_place in El. rewrite (n_off _ _ _ N) by congruence. rewrite (n_perm _ _ _ N). auto.
Qed.

Lemma near_validate X D1 D2 vault s : hd_error X = Some last_check_file -> near X D1 D2 -> place (d_cwd D1) vault <> X ->
  validate D1 vault s = validate D2 vault s.
Proof.
  intros Hx N Hp. unfold validate. destruct (near_stat X D1 D2 vault N Hp) as [-> _].
  destruct vault as [|c vault]; [reflexivity|]. assert (Hv : c :: vault <> []) by discriminate. set (v := c :: vault) in *. clearbody v.
  assert (Hq : place (d_cwd D1) (profile_path v) <> X).
  { unfold profile_path. change [v; profile_dir; profile_file] with (v :: [profile_dir] ++ [profile_file]).
    rewrite (join_path_snoc v [profile_dir] profile_file Hv ltac:(discriminate) ltac:(auto using default_plain) profile_file_plain).
    intros E. rewrite <- E in Hx. unfold place in Hx. rewrite split_slash_app_slash, lexical_app in Hx.
    cbn in Hx. discriminate Hx. }
  unfold load_profile. destruct (near_stat X D1 D2 (profile_path v) N Hq) as [-> ->]. reflexivity.
Qed.

(** The check of a command: it ends, changes no file but the time of the last check, and shows at most a notice. *)
Lemma check_proper dir w m v cfg : get_config m = Ok cfg -> rooted dir = true -> stat (w_disk w) dir <> None -> proper_answer w ->
  exists w1 note, cli_check dir (MkApp w m v) = (MkApp w1 m v, Ok tt) /\ near (last_check_file :: place [] dir) (w_disk w) (w_disk w1) /\
    w_pass w1 = w_pass w /\ screen w1 = screen w ++ note /\ notice w note.
Proof.
  intros Hg Hroot Hdir Hprop. destruct (cfg_notify cfg) eqn:Hn.
  2: { exists w, []. split; [exact (silent_check dir (MkApp w m v) cfg Hg Hn)|]. split; [apply near_refl|]. split; [reflexivity|].
       split; [now rewrite app_nil_r|now left]. }
  rewrite (cli_check_on dir (MkApp w m v) cfg Hg Hn), check_eq, should_check_eq. set (bb := orb _ _). cbn [a_world a_conf a_vault].
  destruct (rest_clock_same w) as (R1 & R2 & R3).
  assert (R4 : w_pass (rest_clock w) = w_pass w) by (unfold rest_clock; destruct (w_clock w); reflexivity).
  assert (R5 : screen (rest_clock w) = screen w) by (unfold screen; now rewrite R1).
  destruct bb.
  2: { exists (rest_clock w), []. split; [reflexivity|]. rewrite R2. split; [apply near_refl|]. split; [exact R4|].
       split; [now rewrite app_nil_r|now left]. }
  rewrite <- R4, <- R5. rewrite <- R2 in Hdir |- *.
  assert (Hprop' : forall body, answer (rest_clock w) 0 body -> ~ odd_list body) by (intros body; unfold answer; rewrite R3; apply Hprop).
  assert (Hans : forall body, answer (rest_clock w) 0 body -> answer w 0 body) by (intros body; unfold answer; now rewrite R3).
  set (w0 := rest_clock w) in *. clearbody w0. clear R1 R2 R3 R4 R5.
  assert (Q := quiet_facade (last_check_file :: place [] dir) dir Hroot eq_refl m w0 Hdir).
  assert (Ef : facade_check m true dir w0 = do_check dir w0).
  { unfold facade_check, bind, lift. rewrite Hg. exact (check_eq (cfg_period cfg) true dir w0). }
  assert (Hp := quiet_check (cfg_period cfg) true dir w0). rewrite check_eq in Hp.
  assert (He := emits_check no_out ltac:(intros; exact Logic.I) ltac:(intros; exact Logic.I) (cfg_period cfg) true dir).
  assert (Hs := emits_no_out _ w0 He). rewrite check_eq in Hs.
  assert (Hnp : snd (do_check dir w0) <> Panic).
  { intros X. destruct (check_panics (cfg_period cfg) dir w0) as (body & H1 & H2); [now rewrite check_eq|]. exact (Hprop' body H1 H2). }
  assert (Hne : forall n, snd (do_check dir w0) <> Exit n).
  { intros n. assert (X := noexit_check (cfg_period cfg) true dir w0 n). rewrite check_eq in X. exact X. }
  rewrite Ef in Q. 
  assert (Hv : forall info, snd (do_check dir w0) = Ok (Val info) -> exists body o, answer w 0 body /\ offers body o /\ newer (of_version o) /\ of_version o = ui_version info).
  { intros info. unfold do_check, bind at 1. destruct (fetch_info w0) as [w1 x] eqn:Efi. 
    assert (Hx : snd (fetch_info w0) = x) by now rewrite Efi.
    assert (S : forall y : eres update_info, snd ((check_timestamp dir ;;; ret y)%st w1) = Ok y).
    { intros y. unfold bind. assert (H := stamp_ok dir w1). destruct (check_timestamp dir w1) as [w2 z]. cbn [snd] in H. subst z. reflexivity. }
    destruct x as [[[i|]|e]| |n]; try discriminate; rewrite ?S; [|discriminate].
    destruct (ui_newer i) eqn:En; [|discriminate]. intros [= <-]. apply fetch_offers in Hx. destruct Hx as (body & H1 & H2 & H3).
    exists body, (offer_of i). split; [now apply Hans|]. split; [exact H2|]. split; [apply H3; exact En|reflexivity]. }
  destruct (do_check dir w0) as [w1 [[info|e]| |n]]; cbn [fst snd] in *; [| |now elim Hnp|now elim (Hne n)].
  - destruct (Hv info eq_refl) as (body & o & H1 & H2 & H3 & H4).
    exists (add_event (EOut (announcement (ui_version info))) w1), [announcement (of_version o)].
    split; [rewrite <- (announcement_line (ui_version info)); reflexivity|]. split; [apply Q|]. split; [apply Hp|].
    split; [rewrite screen_event, Hs, H4; reflexivity|]. right. exists body, o. auto.
  - exists w1, []. split; [reflexivity|]. split; [apply Q|]. split; [apply Hp|]. split; [rewrite Hs; now rewrite app_nil_r|now left].
Qed.

Lemma lines_disk ls : forall w, w_disk (fold_left (fun w l => add_event (EOut (l ++ newline)) w) ls w) = w_disk w.
Proof. induction ls as [|l ls IH]; intros w; [reflexivity|]. cbn [fold_left]. now rewrite IH. Qed.

(** What a command does once the vault is open depends on the vault alone. *)
Lemma finish_same U tz O render c v s : flag_of c = Some v -> exists out r, forall a, a_vault a = s ->
  snd (finish U tz O render c a) = r /\ screen (a_world (fst (finish U tz O render c a))) = screen (a_world a) ++ out /\
  w_disk (a_world (fst (finish U tz O render c a))) = w_disk (a_world a).
Proof.
  intros Hf.
  assert (G : forall mk uid trashed, exists out r, forall a, a_vault a = s ->
    let x := (i <- on_vault (fun _ s => Ok (s, get_item uid trashed s)) ;;
      match i with Some i => say_all (item_lines tz mk i) | None => say (b "Item with UID " ++ uid ++ b " do not exist") end)%st a in
    snd x = r /\ screen (a_world (fst x)) = screen (a_world a) ++ out /\ w_disk (a_world (fst x)) = w_disk (a_world a)).
  { intros mk uid trashed. destruct (get_item uid trashed s) as [i|] eqn:Ei.
    - exists (map (fun l => l ++ newline) (item_lines tz mk i)), (Ok tt). intros a Ha. cbv zeta. rewrite finish_item, Ha, Ei. cbn [fst snd a_world].
      split; [reflexivity|]. split; [apply screen_lines|apply lines_disk].
    - exists [(b "Item with UID " ++ uid ++ b " do not exist") ++ newline], (Ok tt). intros a Ha. cbv zeta. rewrite finish_item, Ha, Ei. cbn [fst snd a_world].
      split; [reflexivity|]. split; [apply screen_event|reflexivity]. }
  destruct c; try discriminate Hf; try apply G.
  destruct (wanted U s category) as [cat|e] eqn:Ew.
  - eexists. exists (Ok tt). intros a Ha. rewrite finish_list, Ha, Ew. cbn [fst snd a_world]. split; [reflexivity|]. split; [apply screen_event|reflexivity].
  - eexists. exists (Exit 1). intros a Ha. rewrite finish_list, Ha, Ew. cbn [fst snd a_world]. split; [reflexivity|]. split; [apply screen_event|reflexivity].
Qed.

Lemma ask_screen w : screen (after_ask w) = screen w /\ w_disk (after_ask w) = w_disk w.
Proof. unfold after_ask, ask_password. destruct (w_pass w); split; reflexivity. Qed.

(** What follows the check is the same on disks that differ in the time of the last check only. *)
Lemma rest_same C U tz O render c v vault m w : flag_of c = Some v -> has_meta vault = false ->
  forall X, hd_error X = Some last_check_file -> place (d_cwd (w_disk w)) vault <> X ->
  exists out r, forall w1, near X (w_disk w) (w_disk w1) -> w_pass w1 = w_pass w ->
    let x := (enter C U tz O vault ;;; finish U tz O render c)%st (MkApp w1 m init) in
    snd x = r /\ screen (a_world (fst x)) = screen w1 ++ out /\ w_disk (a_world (fst x)) = w_disk w1.
Proof.
  intros Hf Hm X Hx Hp.
  assert (V : forall w1, near X (w_disk w) (w_disk w1) -> validate (w_disk w1) vault init = validate (w_disk w) vault init).
  { intros w1 N. symmetry. now apply near_validate with X. }
  destruct (validate (w_disk w) vault init) as [[s1 [e|]]| |n] eqn:Ev.
  - exists [err_text e ++ newline], (Exit 1). intros w1 N P. cbv zeta. unfold bind at 1 2 3. rewrite enter_eq. cbn [a_world a_conf a_vault]. rewrite (V w1 N).
    cbn [fst snd a_world]. split; [reflexivity|]. split; [apply screen_event|reflexivity].
  - assert (Hv : vault <> []) by (intros ->; discriminate Ev).
    assert (K : forall w1, near X (w_disk w) (w_disk w1) -> w_pass w1 = w_pass w ->
       unlock C U tz O (w_disk w1) vault (typed_pass w1) s1 = unlock C U tz O (w_disk w) vault (typed_pass w) s1).
    { intros w1 N P. unfold typed_pass. rewrite P. symmetry. now apply (unlock_near X Hx vault Hv Hm C U tz O). }
    assert (S : forall w1, screen (after_ask (add_event (EOut (b "Password:" ++ newline)) w1)) = screen w1 ++ [b "Password:" ++ newline] /\
       w_disk (after_ask (add_event (EOut (b "Password:" ++ newline)) w1)) = w_disk w1).
    { intros w1. destruct (ask_screen (add_event (EOut (b "Password:" ++ newline)) w1)) as [-> ->]. split; [apply screen_event|reflexivity]. }
    destruct (unlock C U tz O (w_disk w) vault (typed_pass w) s1) as [[s2 [e|]]| |n] eqn:Eu.
    + exists ([b "Password:" ++ newline] ++ [err_text e ++ newline]), (Exit 1). intros w1 N P. cbv zeta. unfold bind at 1 2 3. rewrite enter_eq. cbn [a_world a_conf a_vault].
      rewrite (V w1 N). cbv zeta. rewrite (K w1 N P). cbn [fst snd a_world]. destruct (S w1) as [S1 S2].
      split; [reflexivity|]. split; [rewrite screen_event, S1; now rewrite app_assoc|exact S2].
    + destruct (finish_same U tz O render c v s2 Hf) as (out & r & F).
      exists ([b "Password:" ++ newline] ++ out), r. intros w1 N P. cbv zeta. unfold bind at 1 2 3. rewrite enter_eq. cbn [a_world a_conf a_vault].
      rewrite (V w1 N). cbv zeta. rewrite (K w1 N P). destruct (S w1) as [S1 S2].
      destruct (F (MkApp (after_ask (add_event (EOut (b "Password:" ++ newline)) w1)) m s2) eq_refl) as (F1 & F2 & F3).
      split; [exact F1|]. split; [rewrite F2; cbn [a_world]; rewrite S1; now rewrite app_assoc|rewrite F3; exact S2].
    + exists [b "Password:" ++ newline], Panic. intros w1 N P. cbv zeta. unfold bind at 1 2 3. rewrite enter_eq. cbn [a_world a_conf a_vault].
      rewrite (V w1 N). cbv zeta. rewrite (K w1 N P). cbn [fst snd a_world]. destruct (S w1) as [S1 S2]. auto.
    + exists [b "Password:" ++ newline], (Exit n). intros w1 N P. cbv zeta. unfold bind at 1 2 3. rewrite enter_eq. cbn [a_world a_conf a_vault].
      rewrite (V w1 N). cbv zeta. rewrite (K w1 N P). cbn [fst snd a_world]. destruct (S w1) as [S1 S2]. auto.
  - exists [], Panic. intros w1 N P. cbv zeta. unfold bind at 1 2 3. rewrite enter_eq. cbn [a_world a_conf a_vault]. rewrite (V w1 N).
    cbn [fst snd a_world]. rewrite app_nil_r. auto.
  - exists [], (Exit n). intros w1 N P. cbv zeta. unfold bind at 1 2 3. rewrite enter_eq. cbn [a_world a_conf a_vault]. rewrite (V w1 N).
    cbn [fst snd a_world]. rewrite app_nil_r. auto.
Qed.

(** The whole command, as a function of what the check left behind. *)
Lemma command_same C U tz O Y T render dir c w m cfg X : shows c -> get_config m = Ok cfg -> is_available m = true ->
  hd_error X = Some last_check_file ->
  (forall vault, opens c m vault -> has_meta vault = false /\ place (d_cwd (w_disk w)) vault <> X) ->
  exists out r, forall w0 w1, cli_check dir (MkApp w0 m init) = (MkApp w1 m init, Ok tt) -> near X (w_disk w) (w_disk w1) -> w_pass w1 = w_pass w ->
    let x := run_command C U tz O Y T render dir c (MkApp w0 m init) in
    snd x = r /\ screen (a_world (fst x)) = screen w1 ++ out /\ w_disk (a_world (fst x)) = w_disk w1.
Proof.
  intros Hc Hg Ha Hx Hv.
  assert (G : forall v, flag_of c = Some v -> opens c m (vault_in_use v m) -> exists out r, forall w0 w1,
    cli_check dir (MkApp w0 m init) = (MkApp w1 m init, Ok tt) -> near X (w_disk w) (w_disk w1) -> w_pass w1 = w_pass w ->
    let x := run_command C U tz O Y T render dir c (MkApp w0 m init) in
    snd x = r /\ screen (a_world (fst x)) = screen w1 ++ out /\ w_disk (a_world (fst x)) = w_disk w1).
  { intros v Hf Ho. destruct (Hv _ Ho) as [Hm Hp]. rewrite vault_in_use_path in Hm, Hp.
    destruct (rest_same C U tz O render c v (vault_path v m) m w Hf Hm X Hx Hp) as (out & r & R). exists out, r.
    intros w0 w1 E N P. cbv zeta.
    assert (Q : run_command C U tz O Y T render dir c (MkApp w0 m init) =
       (enter C U tz O (vault_path v m) ;;; finish U tz O render c)%st (MkApp w1 m init)).
    { rewrite (run_prepared _ _ _ _ _ _ _ _ _ v _ Hf).
      assert (F1 : first_run U Y dir (MkApp w0 m init) = (MkApp w0 m init, Ok tt)) by (unfold first_run, bind, the_conf; cbn [a_conf]; rewrite Ha; reflexivity).
      assert (F2 : prepare U Y dir (MkApp w0 m init) = (MkApp w1 m init, Ok tt)) by (unfold prepare, bind at 1; rewrite F1; exact E).
      rewrite F2, choose_eq. cbn [a_conf snd]. destruct v; [rewrite Hg|]; reflexivity. }
    rewrite Q. exact (R w1 N P). }
  destruct c; cbn [shows] in Hc; try contradiction; try (apply (G vault); reflexivity).
  eexists. exists (Ok tt). intros w0 w1 E N P. cbv zeta. cbn [run_command]. unfold get_categories, bind, on_vault. rewrite E.
  cbn [a_world a_conf a_vault]. split; [reflexivity|]. split; [apply screen_event|reflexivity].
Qed.

Lemma place_lastcheck w dir : rooted dir = true -> last_check_place w dir = last_check_file :: place [] dir.
Proof.
  intros H. unfold last_check_place, check_file. rewrite place_join by (destruct dir; discriminate). unfold place. rewrite H. reflexivity.
Qed.

(** ** C111 *)

(** The server's answer changes nothing of what a command does, but for a line about a newer release in front: without any connection
    the command has the same result and shows the same.  Only the time of the last check can differ. *)
Theorem C111_any_answer_partial : forall C U tz O Y T render dir c w cfg m w1 r1 w2 r2,
  shows c -> load_config Y (w_disk w) dir = Ok m -> is_available m = true -> get_config m = Ok cfg ->
  rooted dir = true -> stat (w_disk w) dir <> None ->
  (forall vault, opens c m vault -> plain_path vault /\ place (d_cwd (w_disk w)) vault <> last_check_place w dir) ->
  proper_answer w ->
  process C U tz O Y T render dir c w = (w1, r1) -> process C U tz O Y T render dir c (offline w) = (w2, r2) ->
  r1 = r2 /\
  (exists note shown, notice w note /\ screen w1 = screen w ++ note ++ shown /\ screen w2 = screen w ++ shown) /\
  (forall k, k <> last_check_place w dir -> fs_get (w_fs w1) k = fs_get (w_fs w) k) /\ w_disk w2 = w_disk w.
Proof.
  intros C U tz O Y T render dir c w cfg m w1 r1 w2 r2 Hc Hl Ha Hg Hroot Hdir Hv Hprop H1 H2.
  rewrite process_run, Hl in H1. rewrite process_run in H2. change (w_disk (offline w)) with (w_disk w) in H2. rewrite Hl in H2.
  set (X := last_check_file :: place [] dir).
  assert (HX : last_check_place w dir = X) by now apply place_lastcheck. rewrite HX in *.
  destruct (check_proper dir w m init cfg Hg Hroot Hdir Hprop) as (u1 & note & K1 & N1 & P1 & S1 & Hn).
  assert (Hoff : forall body, ~ answer (offline w) 0 body) by (intros body E; discriminate E).
  destruct (quiet_cli_check dir (offline w) m init cfg Hg (or_intror (conj Ha Hoff))) as (_ & u2 & K2 & D2 & S2 & P2).
  destruct (command_same C U tz O Y T render dir c w m cfg X Hc Hg Ha eq_refl) as (out & r & R).
  { intros vault Ho. destruct (Hv vault Ho) as [A B]. split; [now apply plain_path_meta|exact B]. }
  destruct (R w u1 K1 N1 P1) as (A1 & A2 & A3).
  destruct (R (offline w) u2 K2) as (B1 & B2 & B3); [rewrite D2; apply near_refl|exact P2|].
  assert (W1 : w1 = a_world (fst (run_command C U tz O Y T render dir c (MkApp w m init)))) by congruence.
  assert (W2 : w2 = a_world (fst (run_command C U tz O Y T render dir c (MkApp (offline w) m init)))) by congruence.
  split; [congruence|]. split; [|split].
  - exists note, out. split; [exact Hn|]. rewrite W1, W2, A2, B2, S1, S2. split; [now rewrite app_assoc|reflexivity].
  - intros k Hk. unfold w_fs. rewrite W1, A3. symmetry. now apply (n_off _ _ _ N1).
  - rewrite W2, B3. exact D2.
Qed.
Print Assumptions C111_any_answer_partial.

(** Refuted otherwise: an answer that is a list without a proper release, such as the empty list, stops every command, in every such state,
    before anything is shown. *)
Theorem C111_odd_answer_refuted : forall C U tz O Y T render dir c w cfg t ts body,
  c <> CmdUpdate -> c <> CmdVersion -> settings Y w dir cfg -> cfg_notify cfg = true ->
  w_clock w = t :: ts -> due w dir t (cfg_period cfg) -> answer w 0 body -> odd_list body ->
  exists w', process C U tz O Y T render dir c w = (w', Panic) /\ screen w' = screen w /\ w_disk w' = w_disk w.
Proof.
  intros C U tz O Y T render dir c w cfg t ts body Hu Hver (m & Hl & Ha & Hg) Hn Hcl Hdue Hans Hodd.
  assert (Hp : read_releases body = Panic).
  { destruct Hodd as ((l & Hd) & Hno & Hof). unfold document in Hd.
    assert (N := read_releases_noexit body). destruct (read_releases body) as [[[i|]|e]| |n] eqn:E; [| | |reflexivity|now elim (N n)].
    - apply read_offers in E. now elim Hof; exists (offer_of i).
    - apply read_none in E. now elim Hno.
    - exfalso. revert E. unfold read_releases. rewrite Hd. destruct l as [|j l]; [discriminate|].
      assert (G : forall (A : Type) (r : res A) (f : A -> res (eres (option update_info))),
        (forall a, f a <> Ok (Err e)) -> rbind r f <> Ok (Err e)) by (intros A [a| |n] f Hf; [apply Hf|discriminate|discriminate]).
      destruct j; try discriminate; repeat (apply G; intro); discriminate. }
  destruct (rest_clock_same w) as (R1 & R2 & R3).
  assert (Hck : cli_check dir (MkApp w m init) = (MkApp (fst (fetch_info (rest_clock w))) m init, Panic)).
  { rewrite (cli_check_on dir (MkApp w m init) cfg Hg Hn). cbn [a_world a_conf a_vault]. rewrite (due_check dir w t ts _ Hcl Hdue).
    unfold do_check, bind at 1.
    assert (E : snd (fetch_info (rest_clock w)) = Panic).
    { unfold fetch_info, bind, http_get. change github_releases with releases_url.
      assert (Hx : exists c u, releases_url = c :: u) by (eexists; eexists; reflexivity). destruct Hx as (x & u & ->).
      rewrite R3. unfold answer in Hans. destruct (w_net w) as [|y net]; [discriminate Hans|]. cbn [nth_error] in Hans. injection Hans as ->.
      unfold lift. rewrite Hp. reflexivity. }
    destruct (fetch_info (rest_clock w)) as [u1 x]. cbn [fst snd] in *. subst x. reflexivity. }
  destruct (fetch_asks (rest_clock w)) as (F1 & F2 & _).
  exists (fst (fetch_info (rest_clock w))). split; [|split; [|congruence]].
  2: { unfold screen. rewrite F1, R1. reflexivity. }
  rewrite process_run, Hl.
  assert (E : run_command C U tz O Y T render dir c (MkApp w m init) = (MkApp (fst (fetch_info (rest_clock w))) m init, Panic)).
  { destruct (flag_of c) as [v|] eqn:Ef.
    - rewrite (run_prepared _ _ _ _ _ _ _ _ _ v _ Ef). 
      assert (G1 : first_run U Y dir (MkApp w m init) = (MkApp w m init, Ok tt)) by (unfold first_run, bind, the_conf; cbn [a_conf]; rewrite Ha; reflexivity).
      unfold prepare, bind at 1. rewrite G1, Hck. reflexivity.
    - destruct c; try discriminate Ef; try congruence.
      + cbn [run_command]. unfold configure, bind at 1. rewrite Hck. reflexivity.
      + cbn [run_command]. unfold get_categories, bind at 1. rewrite Hck. reflexivity. }
  rewrite E. reflexivity.
Qed.
Print Assumptions C111_odd_answer_refuted.

(** The server offers 1.4.0: one line more than without a connection.  It answers with an empty list: nothing at all. *)
Example C111_example :
  let w := on_world1 [1641124800000000000; 1641124800000000001]%Z [NetBody (release (b "1.4.0")) true] in
  let c := CmdList [] (b " LOGIN ") (b "M") false in
  let shown := [b "Password:" ++ newline; b "lp.uidcategorytitle1AALoginMail" ++ newline] in
  load_config toy_yaml (w_disk w) (b "/c") = Ok (Some on_settings) /\
  (forall vault, opens c (Some on_settings) vault -> plain_path vault /\ place (d_cwd (w_disk w)) vault <> last_check_place w (b "/c")) /\
  proper_answer w /\
  screen (fst (demo_process (b "/c") c w)) = [announcement (b "1.4.0")] ++ shown /\
  screen (fst (demo_process (b "/c") c (offline w))) = shown.
Proof.
  cbn zeta. split; [vm_compute; reflexivity|]. split; [|split; [|split]].
  - intros vault H. cbn [opens] in H. subst vault. split; [apply plain_path_meta; vm_compute; reflexivity|vm_compute; discriminate].
  - intros body H (_ & _ & Ho). unfold answer in H. cbn [w_net on_world1 nth_error] in H. injection H as <-. apply Ho.
    assert (E : exists i, read_releases (release (b "1.4.0")) = Ok (Val (Some i))) by (eexists; vm_compute; reflexivity).
    destruct E as (i & E). apply read_offers in E. destruct E as [E _]. eexists. exact E.
  - vm_compute. reflexivity.
  - vm_compute. reflexivity.
Qed.

Example C111_odd_answer_example :
  let w := on_world1 [1641124800000000000]%Z [NetBody (b "[]") true] in
  answer w 0 (b "[]") /\ odd_list (b "[]") /\ due w (b "/c") 1641124800000000000 1 /\
  let r := demo_process (b "/c") (CmdList [] (b " LOGIN ") (b "M") false) w in snd r = Panic /\ screen (fst r) = [].
Proof.
  cbn zeta. split; [reflexivity|]. split; [|split; [apply C59_commands_example|split; vm_compute; reflexivity]].
  destruct (read_cases (b "[]")) as [[e H]|[[x H]|H]]; [vm_compute in H; discriminate H|vm_compute in H; discriminate H|exact H].
Qed.
