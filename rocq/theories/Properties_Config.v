(** Properties of the settings (C43-C49).  The file format is any that behaves as
    [yaml_ok] says; directories, files, faults, answers and networks are arbitrary. *)
From Verif Require Import Base Utf8 Spec_Numeral GoStrings GoStringsProof Json Crypto Path Fs FsProof Domain DomainProof
  Repos Session World WorldProof Config Updater Cli CliProof ToyYaml Toy.

(** ** Specification *)

(** The file the settings live in. *)
Definition settings_file (dir : bytes) : bytes := join_path [dir; config_file].

(** The file holds these settings: None if it has no map in it. *)
Definition holds (Y : yaml) (D : disk) (dir : bytes) (m : gmap yval) : Prop :=
  exists s, read_file D (settings_file dir) = Some s /\ y_parse Y s = Some (Some m).

(** The value of a key; an explicit null counts as missing. *)
Definition value (k : bytes) (m : gmap yval) : option yval :=
  match mget k m with Some YNull => None | v => v end.

(** The keys the program knows. *)
Definition known : list bytes := [b "opvault"; b "timeout"; b "update-notification"; b "update-period"].

(** The program can work with the settings: numbers where it needs numbers. *)
Definition well_typed (m : gmap yval) : Prop :=
  (value (b "timeout") m = None \/ exists z, value (b "timeout") m = Some (YInt z)) /\
  (value (b "update-period") m = None \/ exists z, value (b "update-period") m = Some (YInt z)) /\
  (value (b "update-notification") m = None \/ exists v, value (b "update-notification") m = Some (YBool v)).

(** Lines typed at the terminal. *)
Definition typed (lines : list (list rune)) : list rune := flat_map (fun l => l ++ [10%N]) lines.
(** A line with no blank in it. *)
Definition word (l : list rune) : Prop := Forall (fun r => is_space r = false) l.

(** ** Lemmas *)

Lemma cget_value k m : cget k (Some m) = value k m.
Proof. reflexivity. Qed.

Lemma get_config_value m c : get_config (Some m) = Ok c ->
  (value k_timeout m = None /\ cfg_timeout c = 1%Z \/ value k_timeout m = Some (YInt (cfg_timeout c))) /\
  (value k_period m = None /\ cfg_period c = 1%Z \/ value k_period m = Some (YInt (cfg_period c))) /\
  (value k_notify m = None /\ cfg_notify c = true \/ value k_notify m = Some (YBool (cfg_notify c))) /\
  (value k_vault m = None /\ cfg_vault c = [] \/ exists v, value k_vault m = Some v /\ cfg_vault c = sprint v).
Proof.
  unfold get_config, get_notify, get_period, get_timeout, get_vault. rewrite !cget_value.
  destruct (value k_notify m) as [[| | |v|]|]; cbn [rbind]; try discriminate;
  destruct (value k_period m) as [[| |z| |]|]; cbn [rbind]; try discriminate;
  destruct (value k_timeout m) as [[| |z'| |]|]; cbn [rbind]; try discriminate; intros [= <-]; cbn [cfg_timeout cfg_notify cfg_period cfg_vault];
  (repeat split; auto); destruct (value k_vault m); eauto.
Qed.

Lemma set_config_get c m m' : set_config c (Some m) = Ok m' ->
  mget k_vault m' = Some (YStr (cfg_vault c)) /\ mget k_timeout m' = Some (YInt (cfg_timeout c)) /\
  mget k_notify m' = Some (YBool (cfg_notify c)) /\ mget k_period m' = Some (YInt (cfg_period c)) /\
  (forall k, ~ In k known -> mget k m' = mget k m) /\ (NoDup (map fst m) -> NoDup (map fst m')) /\ m' <> [].
Proof.
  unfold set_config. intros H.
  assert (Hm : m' = mset k_period (YInt (cfg_period c)) (mset k_notify (YBool (cfg_notify c))
         (mset k_timeout (YInt (cfg_timeout c)) (mset k_vault (YStr (cfg_vault c)) m)))) by congruence.
  clear H. subst m'. repeat split.
  - rewrite !mget_mset. reflexivity.
  - rewrite !mget_mset. reflexivity.
  - rewrite !mget_mset. reflexivity.
  - rewrite !mget_mset. reflexivity.
  - intros k Hk. rewrite !mget_mset.
    destruct (bytes_eqb k k_period) eqn:E1; [apply bytes_eqb_eq in E1; subst; exfalso; apply Hk; simpl; auto|].
    destruct (bytes_eqb k k_notify) eqn:E2; [apply bytes_eqb_eq in E2; subst; exfalso; apply Hk; simpl; auto|].
    destruct (bytes_eqb k k_timeout) eqn:E3; [apply bytes_eqb_eq in E3; subst; exfalso; apply Hk; simpl; auto|].
    destruct (bytes_eqb k k_vault) eqn:E4; [apply bytes_eqb_eq in E4; subst; exfalso; apply Hk; simpl; auto|].
    reflexivity.
  - intros Hn. now repeat apply mset_NoDup.
  - intros Hn. assert (mget k_period (@nil (bytes * yval)) = Some (YInt (cfg_period c))); [|discriminate].
    rewrite <- Hn at 1. rewrite mget_mset. reflexivity.
Qed.

(** A save that comes back: what was there before and what is there now. *)
Lemma save_ok Y dir c m w w' m2 :
  save_config Y dir c (Some m) w = (w', Ok m2) ->
  exists m1 s w1, set_config c (Some m) = Ok m1 /\ y_print Y m1 = Some s /\
    saved (settings_file dir) s 420 w1 w' /\ load_config Y (w_disk w') dir = Ok m2.
Proof.
  intros H. apply bind_ok in H. destruct H as (w0 & m1 & Hs & H). unfold lift in Hs.
  injection Hs as <- Hs. destruct (y_print Y m1) as [s|] eqn:Ep; [|discriminate].
  apply bind_ok in H. destruct H as (w1 & d & Hd & H).
  apply bind_ok in H. destruct H as (w2 & ok & Hk & H).
  apply bind_ok in H. destruct H as (w3 & ok' & Hw & H). destruct ok'; [|discriminate].
  apply write_file_ok in Hw. injection H as -> Hl.
  exists m1, s, w2. split; [unfold set_config; now rewrite Hs|]. split; [exact Ep|]. split; [exact Hw|exact Hl].
Qed.

Lemma load_read Y D dir s : read_file D (settings_file dir) = Some s ->
  load_config Y D dir = match y_parse Y s with None => fatal | Some m => Ok m end.
Proof.
  intros H. unfold load_config. fold (settings_file dir). rewrite H.
  unfold read_file, stat in *. destruct (resolve D (settings_file dir)); [|discriminate].
  destruct (fs_get (d_fs D) l); [reflexivity|discriminate].
Qed.

Lemma load_inv Y D dir m : load_config Y D dir = Ok m ->
  (stat D (settings_file dir) = None /\ m = Some []) \/
  exists s, read_file D (settings_file dir) = Some s /\ y_parse Y s = Some m.
Proof.
  unfold load_config. fold (settings_file dir). destruct (stat D (settings_file dir)); [|intros [= <-]; auto].
  destruct (read_file D (settings_file dir)) as [s|]; [|discriminate].
  destruct (y_parse Y s) eqn:E; [|discriminate]. intros [= <-]. right. exists s. auto.
Qed.

Lemma load_nodup Y D dir m : yaml_ok Y -> load_config Y D dir = Ok (Some m) -> NoDup (map fst m).
Proof.
  intros HY H. apply load_inv in H. destruct H as [[_ [= ->]]|(s & _ & Hp)]; [constructor|].
  exact (y_nodup Y HY s m Hp).
Qed.

Lemma save_holds Y dir c m w w' m2 :
  yaml_ok Y -> NoDup (map fst m) -> save_config Y dir c (Some m) w = (w', Ok m2) ->
  exists m', m2 = Some m' /\ holds Y (w_disk w') dir m' /\
    mget k_vault m' = Some (YStr (cfg_vault c)) /\ mget k_timeout m' = Some (YInt (cfg_timeout c)) /\
    mget k_notify m' = Some (YBool (cfg_notify c)) /\ mget k_period m' = Some (YInt (cfg_period c)) /\
    (forall k, ~ In k known -> mget k m' = mget k m).
Proof.
  intros HY Hn H. apply save_ok in H. destruct H as (m1 & s & w1 & Hs & Hp & Hw & Hl).
  destruct (set_config_get _ _ _ Hs) as (G1 & G2 & G3 & G4 & G5 & G6 & G7).
  destruct (y_back Y HY m1 s (G6 Hn) G7 Hp) as (m' & Hb & Hn' & Hg).
  exists m'. apply load_inv in Hl. destruct Hl as [[Hst ->]|(s' & Hr & Hp')].
  - exfalso. destruct Hw as (l & _ & _ & _ & Hr & Hf & _). unfold stat in Hst. rewrite Hr in Hst.
    unfold w_fs in Hf. congruence.
  - assert (s' = s) by (eapply saved_read; eauto). subst s'.
    split; [congruence|]. split; [exists s; auto|].
    rewrite !Hg. repeat split; auto. intros k Hk. rewrite Hg. auto.
Qed.

Lemma get_config_full m' c :
  mget k_vault m' = Some (YStr (cfg_vault c)) -> mget k_timeout m' = Some (YInt (cfg_timeout c)) ->
  mget k_notify m' = Some (YBool (cfg_notify c)) -> mget k_period m' = Some (YInt (cfg_period c)) ->
  get_config (Some m') = Ok c.
Proof.
  intros H1 H2 H3 H4. unfold get_config, get_notify, get_period, get_timeout, get_vault.
  rewrite !cget_value. unfold value. rewrite H1, H2, H3, H4. cbn. now destruct c.
Qed.

(** ** C43 *)

(** Whatever was in the file before: if saving comes back, this process reads the saved
    settings, and so does every later process that finds the file as it was left. *)
Theorem C43_saved_settings_read_back : forall Y dir c D0 m w w' m2,
  yaml_ok Y -> load_config Y D0 dir = Ok m ->
  save_config Y dir c m w = (w', Ok m2) ->
  get_config m2 = Ok c /\
  forall D', read_file D' (settings_file dir) = read_file (w_disk w') (settings_file dir) ->
    exists m', load_config Y D' dir = Ok m' /\ get_config m' = Ok c /\ is_available m' = true.
Proof.
  intros Y dir c D0 m w w' m2 HY Hl Hs. destruct m as [m|]; [|discriminate].
  apply load_nodup in Hl; [|exact HY].
  destruct (save_holds _ _ _ _ _ _ _ HY Hl Hs) as (m' & -> & (s & Hr & Hp) & H1 & H2 & H3 & H4 & _).
  assert (Hc : get_config (Some m') = Ok c) by now apply get_config_full.
  split; [exact Hc|]. intros D' HD. exists (Some m'). split; [|split; [exact Hc|]].
  - rewrite (load_read _ _ _ s) by congruence. now rewrite Hp.
  - destruct m'; [discriminate|reflexivity].
Qed.
Print Assumptions C43_saved_settings_read_back.

(** Saving comes back when the directory is there, the file can be written and read, and
    the settings did not come from an empty file. *)
Theorem C43_saving_succeeds : forall Y dir c m w L,
  yaml_ok Y -> NoDup (map fst m) -> w_faults w = [] ->
  resolve (w_disk w) dir = Some L -> is_dir (w_fs w) L = true ->
  is_dir (w_fs w) (config_file :: L) = false ->
  d_unreadable (w_disk w) (config_file :: L) = false ->
  exists w' m2, save_config Y dir c (Some m) w = (w', Ok m2).
Proof.
  intros Y dir c m w L HY Hn Hf Hd Hdir Hnd Hu.
  assert (Hpl : plain_name config_file).
  { split; [repeat split; discriminate|]. intros H. vm_compute in H. intuition discriminate. }
  assert (Hrn := resolve_new_join (w_disk w) dir L config_file Hd Hdir Hpl).
  fold (settings_file dir) in Hrn.
  destruct (set_config c (Some m)) as [m1| |] eqn:Es; [|discriminate|discriminate].
  destruct (set_config_get _ _ _ Es) as (G1 & G2 & G3 & G4 & G5 & G6 & G7).
  destruct (y_prints Y HY m1) as [s Hp].
  destruct (y_back Y HY m1 s (G6 Hn) G7 Hp) as (m' & Hb & _ & _).
  destruct (write_file_fine (settings_file dir) s 420 w _ Hf Hrn Hnd) as (w' & Hw & _).
  exists w', (Some m').
  unfold save_config, bind, lift. rewrite Es, Hp. unfold io_stat, stat. rewrite Hd.
  unfold is_dir, w_fs in Hdir. destruct (fs_get (d_fs (w_disk w)) L) as [n|]; [|discriminate].
  cbn [ret]. fold (settings_file dir). rewrite Hw.
  apply write_file_ok in Hw.
  rewrite (load_read _ _ _ s); [now rewrite Hb|].
  apply (saved_readable _ _ _ _ _ Hw).
  rewrite <- (resolve_new_place _ _ _ Hrn). exact Hu.
Qed.
Print Assumptions C43_saving_succeeds.

(** A directory with saved settings and a foreign key. *)
Definition demo_settings : gmap yval :=
  [(b "opvault", YStr (b "/v")); (b "theme", YStr (b "dark")); (b "timeout", YInt 5)].
Definition conf_fs : fs :=
  [ ([b "c"], NDir);
    ([config_file; b "c"], NFile (match y_print toy_yaml demo_settings with Some s => s | None => [] end) 420) ].
Definition conf_world : world :=
  MkWorld (MkDisk conf_fs [] (fun _ => false)) 18 (Some (b "/bin/1pass")) [] [] [] [] [] [].

Example C43_example :
  exists m w' m2, load_config toy_yaml (w_disk conf_world) (b "/c") = Ok m /\
    save_config toy_yaml (b "/c") (MkConfig 7 false 30 (b "/new vault")) m conf_world = (w', Ok m2) /\
    get_config m2 = Ok (MkConfig 7 false 30 (b "/new vault")).
Proof.
  let m := eval vm_compute in (load_config toy_yaml (w_disk conf_world) (b "/c")) in
  match m with Ok ?m =>
    exists m;
    let r := eval vm_compute in (save_config toy_yaml (b "/c") (MkConfig 7 false 30 (b "/new vault")) m conf_world) in
    match r with (?w, Ok ?m2) => exists w, m2 end
  end; repeat split; vm_compute; reflexivity.
Qed.

(** ** C44 *)

(** Every key the program does not know keeps its value. *)
Theorem C44_unknown_settings_kept : forall Y dir c D0 m w w' m2,
  yaml_ok Y -> load_config Y D0 dir = Ok (Some m) ->
  save_config Y dir c (Some m) w = (w', Ok m2) ->
  exists m', holds Y (w_disk w') dir m' /\ forall k, ~ In k known -> mget k m' = mget k m.
Proof.
  intros Y dir c D0 m w w' m2 HY Hl Hs. apply load_nodup in Hl; [|exact HY].
  destruct (save_holds _ _ _ _ _ _ _ HY Hl Hs) as (m' & _ & Hh & _ & _ & _ & _ & Hk).
  exists m'. auto.
Qed.
Print Assumptions C44_unknown_settings_kept.

Example C44_example :
  exists m' w' m2, load_config toy_yaml (w_disk conf_world) (b "/c") = Ok (Some demo_settings) /\
    save_config toy_yaml (b "/c") (MkConfig 7 false 30 (b "/n")) (Some demo_settings) conf_world = (w', Ok m2) /\
    holds toy_yaml (w_disk w') (b "/c") m' /\ mget (b "theme") m' = Some (YStr (b "dark")).
Proof.
  let r := eval vm_compute in (save_config toy_yaml (b "/c") (MkConfig 7 false 30 (b "/n")) (Some demo_settings) conf_world) in
  match r with (?w, Ok (Some ?m2)) => exists m2, w, (Some m2) end.
  split; [vm_compute; reflexivity|]. split; [vm_compute; reflexivity|]. split; [|vm_compute; reflexivity].
  eexists. split; vm_compute; reflexivity.
Qed.

(** ** C45 *)

Section NoExit.
Definition noexit {A} (m : io A) : Prop := forall w n, snd (m w) <> Exit n.

Lemma noexit_ret {A} (x : A) : noexit (ret x).
Proof. intros w n; discriminate. Qed.
Lemma noexit_bind {A B} (m : io A) (k : A -> io B) : noexit m -> (forall x, noexit (k x)) -> noexit (bind m k).
Proof.
  intros Hm Hk w n. unfold bind. specialize (Hm w). destruct (m w) as [w1 [x| |n']]; cbn [snd] in *; try discriminate.
  - apply Hk.
  - now elim (Hm n').
Qed.
Lemma noexit_change g : noexit (change g).
Proof. intros w n. unfold change. destruct (w_faults w) as [|[x|] fl]; discriminate. Qed.
Lemma noexit_write l d : noexit (write_bytes l d).
Proof. intros w n. unfold write_bytes. destruct (w_faults w) as [|[x|] fl]; discriminate. Qed.
Lemma noexit_open p perm : noexit (open_trunc p perm).
Proof.
  intros w n. unfold open_trunc. destruct (resolve_new (w_disk w) p); [|discriminate].
  destruct (fs_get (w_fs w) l) as [[c m|]|]; try discriminate;
    refine (noexit_bind _ _ (noexit_change _) (fun ok => noexit_ret _) w n).
Qed.
Lemma noexit_write_file p d perm : noexit (write_file p d perm).
Proof. apply noexit_bind; [apply noexit_open|]. intros [l|]; [apply noexit_write|apply noexit_ret]. Qed.
Lemma noexit_make_dirs ls : noexit (make_dirs ls).
Proof.
  induction ls as [|l ls IH]; cbn [make_dirs]; [apply noexit_ret|].
  apply noexit_bind; [apply noexit_change|]. intros [|]; [exact IH|apply noexit_ret].
Qed.
Lemma noexit_mkdir p : noexit (mkdir_all p).
Proof.
  intros w n. unfold mkdir_all. destruct p; [discriminate|]. destruct (missing_dirs _ _ _); [apply noexit_make_dirs|discriminate].
Qed.
Lemma noexit_stat p : noexit (io_stat p).
Proof. intros w n; discriminate. Qed.
Lemma noexit_read p : noexit (io_read p).
Proof. intros w n; discriminate. Qed.
Lemma noexit_now : noexit now.
Proof. intros w n. unfold now. destruct (w_clock w); discriminate. Qed.
Lemma noexit_http u : noexit (http_get u).
Proof. intros w n. unfold http_get. destruct u; [discriminate|]. destruct (w_net w); discriminate. Qed.

Lemma rbind_noexit {A B} (r : res A) (k : A -> res B) n :
  r <> Exit n -> (forall x, k x <> Exit n) -> rbind r k <> Exit n.
Proof. destruct r; cbn; auto; intros H _ [= ->]; now apply H. Qed.
Lemma as_obj_noexit j n : as_obj j <> Exit n.
Proof. destruct j; discriminate. Qed.
Lemma as_str_noexit j n : as_str j <> Exit n.
Proof. destruct j; discriminate. Qed.
Lemma as_arr_noexit j n : as_arr j <> Exit n.
Proof. destruct j; discriminate. Qed.

Lemma asset_urls_noexit l : forall x y n, asset_urls l x y <> Exit n.
Proof.
  induction l as [|j l IH]; intros x y n; cbn [asset_urls]; [discriminate|].
  apply rbind_noexit; [apply as_obj_noexit|]. intros m.
  apply rbind_noexit; [apply as_str_noexit|]. intros s.
  destruct (contains s _); [|destruct (contains s _)]; try apply IH;
    (apply rbind_noexit; [apply as_str_noexit|intros u; apply IH]).
Qed.

Lemma read_releases_noexit body n : read_releases body <> Exit n.
Proof.
  unfold read_releases. destruct (unmarshal body) as [[v|] [|]]; try discriminate;
    destruct v as [| | | |l|]; try discriminate.
  destruct l as [|latest l]; [discriminate|].
  assert (H : rbind (as_obj latest) (fun m =>
          rbind (as_str (jget (b "body") (Some m))) (fun changelog =>
          rbind (as_str (jget (b "tag_name") (Some m))) (fun version =>
          rbind (as_arr (jget (b "assets") (Some m))) (fun assets =>
          rbind (asset_urls assets [] []) (fun urls =>
          Ok (Val (Some (MkInfo (fst urls) changelog (snd urls)
                (version_number app_version <? version_number version)%Z version)))))))) <> Exit n).
  { apply rbind_noexit; [apply as_obj_noexit|]. intros m.
    apply rbind_noexit; [apply as_str_noexit|]. intros s.
    apply rbind_noexit; [apply as_str_noexit|]. intros t.
    apply rbind_noexit; [apply as_arr_noexit|]. intros a.
    apply rbind_noexit; [apply asset_urls_noexit|]. discriminate. }
  destruct latest; first [discriminate|exact H].
Qed.

Lemma noexit_fetch : noexit fetch_info.
Proof.
  apply noexit_bind; [apply noexit_http|]. intros [|body [|]]; try apply noexit_ret.
  intros w n. cbn. apply read_releases_noexit.
Qed.

Lemma noexit_timestamp dir : noexit (check_timestamp dir).
Proof.
  unfold check_timestamp.
  apply noexit_bind; [apply noexit_now|]. intros t. apply noexit_bind; [apply noexit_stat|]. intros d.
  apply noexit_bind; [destruct d; [apply noexit_ret|apply noexit_mkdir]|]. intros _.
  apply noexit_bind; [apply noexit_write_file|]. intros _. apply noexit_ret.
Qed.

Lemma noexit_check p force dir : noexit (check_for_update p force dir).
Proof.
  unfold check_for_update. apply noexit_bind.
  - destruct force; [apply noexit_ret|]. unfold should_check.
    apply noexit_bind; [apply noexit_stat|]. intros s. apply noexit_bind; [apply noexit_read|]. intros c.
    destruct (parse_int _). apply noexit_bind; [apply noexit_now|]. intros t. apply noexit_ret.
  - intros [|]; [|apply noexit_ret]. cbn [negb]. apply noexit_bind; [apply noexit_fetch|].
    intros [[info|]|e]; [| |apply noexit_ret];
      (apply noexit_bind; [apply noexit_timestamp|intros _; apply noexit_ret]).
Qed.
End NoExit.

(** A step that keeps an empty configuration, or panics. *)
Definition keeps_nil {A} (m : act A) : Prop := forall a, a_conf a = None ->
  snd (m a) = Panic \/ exists a' x, m a = (a', Ok x) /\ a_conf a' = None.

Lemma keeps_nil_ret {A} (x : A) : keeps_nil (ret x).
Proof. intros a H. right. exists a, x. auto. Qed.
Lemma keeps_nil_bind {A B} (m : act A) (k : A -> act B) :
  keeps_nil m -> (forall x, keeps_nil (k x)) -> keeps_nil (bind m k).
Proof.
  intros Hm Hk a Ha. unfold bind. destruct (Hm a Ha) as [Hp|(a1 & x & E & Ha1)].
  - left. destruct (m a) as [a1 [x| |n]]; cbn in *; congruence.
  - rewrite E. now apply Hk.
Qed.
Lemma keeps_nil_world {A} (m : io A) : noexit m -> keeps_nil (on_world m).
Proof.
  intros Hm a Ha. rewrite on_world_eq. specialize (Hm (a_world a)).
  destruct (m (a_world a)) as [w [x| |n]]; cbn in *; [right; exists (MkApp w (a_conf a) (a_vault a)), x; auto|left; reflexivity|now elim (Hm n)].
Qed.
Lemma noexit_print t : noexit (print t).
Proof. intros w n; discriminate. Qed.
Lemma keeps_nil_say t : keeps_nil (say t).
Proof. apply keeps_nil_world, noexit_print. Qed.
Lemma noexit_scan : noexit scan.
Proof. intros w n. unfold scan. destruct (scanln (w_stdin w)). discriminate. Qed.
Lemma keeps_nil_conf : keeps_nil the_conf.
Proof. intros a H. right. exists a, (a_conf a). auto. Qed.
Lemma keeps_nil_config : keeps_nil config_now.
Proof.
  intros a H. right. exists a. unfold config_now, bind, the_conf, lift. rewrite H. cbn. eauto.
Qed.

Lemma keeps_nil_the_conf {A} (k : cmap -> act A) : keeps_nil (k None) -> keeps_nil (bind the_conf k).
Proof. intros H a Ha. unfold bind, the_conf. rewrite Ha. now apply H. Qed.

Lemma keeps_nil_check dir : keeps_nil (cli_check dir).
Proof.
  apply keeps_nil_bind; [apply keeps_nil_config|]. intros c. destruct (cfg_notify c); [|apply keeps_nil_ret].
  apply keeps_nil_the_conf. apply keeps_nil_bind.
  - apply keeps_nil_world. apply noexit_bind; [intros w n; discriminate|intros c'; apply noexit_check].
  - intros [info|e]; [apply keeps_nil_say|apply keeps_nil_ret].
Qed.

Lemma panics_bind {A B} (m : act A) (k : A -> act B) a : keeps_nil m -> a_conf a = None ->
  (forall x a', a_conf a' = None -> snd (k x a') = Panic) -> snd (bind m k a) = Panic.
Proof.
  intros Hm Ha Hk. unfold bind. destruct (Hm a Ha) as [Hp|(a1 & x & E & Ha1)].
  - destruct (m a) as [a1 [x| |n]]; cbn in *; congruence.
  - rewrite E. now apply Hk.
Qed.

(** The dialogue always ends in a panic. *)
Lemma configure_nil U Y dir a : a_conf a = None -> snd (configure U Y dir a) = Panic.
Proof.
  intros Ha.
  unfold configure.
  apply panics_bind; [apply keeps_nil_check|exact Ha|]. intros _ a1 H1.
  apply panics_bind; [apply keeps_nil_config|exact H1|]. intros c a2 H2.
  apply panics_bind; [apply keeps_nil_say|exact H2|]. intros _ a3 H3.
  apply panics_bind; [apply keeps_nil_say|exact H3|]. intros _ a4 H4.
  apply panics_bind; [apply keeps_nil_world, noexit_print|exact H4|]. intros _ a5 H5.
  apply panics_bind; [apply keeps_nil_world, noexit_scan|exact H5|]. intros cf a6 H6.
  apply panics_bind; [|exact H6|].
  { destruct (lv_from_name U cf) as [v|e]; [destruct (lv_value v)|]; try apply keeps_nil_ret.
    apply keeps_nil_bind; [apply keeps_nil_world, noexit_print|]. intros _.
    apply keeps_nil_bind; [apply keeps_nil_world, noexit_scan|]. intros s. apply keeps_nil_ret. }
  intros v a7 H7.
  apply panics_bind; [|exact H7|].
  { destruct (cfg_notify c); intros a0 H0; right; exists a0; eexists; split; try exact H0; reflexivity. }
  intros t a8 H8.
  apply panics_bind; [apply keeps_nil_world, noexit_print|exact H8|]. intros _ a9 H9.
  apply panics_bind; [apply keeps_nil_world, noexit_scan|exact H9|]. intros ns a10 H10.
  apply panics_bind; [apply keeps_nil_world, noexit_print|exact H10|]. intros _ a11 H11.
  apply panics_bind; [apply keeps_nil_world, noexit_scan|exact H11|]. intros ts a12 H12.
  apply panics_bind; [apply keeps_nil_world, noexit_print|exact H12|]. intros _ a13 H13.
  apply panics_bind; [apply keeps_nil_world, noexit_scan|exact H13|]. intros ps a14 H14.
  unfold bind, save_now, save_config, bind, lift, set_config. rewrite H14. reflexivity.
Qed.

(** The commands that need settings. *)
Definition needs_settings (c : command) : Prop :=
  match c with CmdUpdate | CmdCategories | CmdVersion => False | _ => True end.

Lemma empty_settings_panic C U tz O Y T render dir cmd w :
  needs_settings cmd -> load_config Y (w_disk w) dir = Ok None ->
  snd (process C U tz O Y T render dir cmd w) = Panic.
Proof.
  intros Hc Hl. unfold process. rewrite Hl.
  assert (F : forall a, a_conf a = None -> snd (first_run U Y dir a) = Panic).
  { intros a Ha. unfold first_run, bind at 1, the_conf. rewrite Ha. cbn [is_available].
    apply panics_bind; [apply keeps_nil_say|exact Ha|]. intros _ a0 H0.
    apply panics_bind; [apply keeps_nil_say|exact H0|]. intros _ a1 H1.
    assert (Hp := configure_nil U Y dir a1 H1). unfold bind.
    destruct (configure U Y dir a1) as [a' [x| |n]]; cbn in *; congruence. }
  assert (OV : forall p a, a_conf a = None -> snd (open_vault C U tz O Y dir p a) = Panic).
  { intros p a Ha. unfold open_vault, bind at 1. specialize (F a Ha).
    destruct (first_run U Y dir a) as [a' [x| |n]]; cbn in *; congruence. }
  destruct cmd as [| | |v c n t|v u t|v u t|]; try contradiction; unfold run_command.
  - assert (Hp := configure_nil U Y dir (MkApp w None init) eq_refl).
    destruct (configure U Y dir _) as [a r]. exact Hp.
  - unfold list_items, bind at 1. specialize (OV v (MkApp w None init) eq_refl).
    destruct (open_vault C U tz O Y dir v (MkApp w None init)) as [a [x| |k]]; cbn in *; congruence.
  - unfold show_item, bind at 1. specialize (OV v (MkApp w None init) eq_refl).
    destruct (open_vault C U tz O Y dir v (MkApp w None init)) as [a [x| |k]]; cbn in *; congruence.
  - unfold show_item, bind at 1. specialize (OV v (MkApp w None init) eq_refl).
    destruct (open_vault C U tz O Y dir v (MkApp w None init)) as [a [x| |k]]; cbn in *; congruence.
Qed.

(** The property fails: with settings on disk, there is a moment of a save after which
    every command that needs settings crashes, whatever is typed, also [configure]. *)
Theorem C45_crash_while_saving_refuted : forall Y, yaml_ok Y ->
  exists dir c m w f, load_config Y (w_disk w) dir = Ok (Some m) /\ m <> [] /\
    In f (moments (fst (save_config Y dir c (Some m) w))) /\
    forall C U tz O T render cmd w2, needs_settings cmd ->
      w_disk w2 = MkDisk f (d_cwd (w_disk w)) (d_unreadable (w_disk w)) ->
      snd (process C U tz O Y T render dir cmd w2) = Panic.
Proof.
  intros Y HY. destruct (y_prints Y HY demo_settings) as [s Hs].
  assert (Hn : NoDup (map fst demo_settings)) by (apply nodup_keys_ok; reflexivity).
  destruct (y_back Y HY demo_settings s Hn ltac:(discriminate) Hs) as (m & Hp & Hm & Hg).
  set (fs0 := [([b "c"], NDir); ([config_file; b "c"], NFile s 420)] : fs).
  set (w := MkWorld (MkDisk fs0 [] (fun _ => false)) 18 None [] [] [] [] [] []).
  set (f := fs_set [config_file; b "c"] (NFile [] 420) fs0).
  exists (b "/c"), (MkConfig 7 false 30 (b "/n")), m, w, f.
  assert (Hl : load_config Y (w_disk w) (b "/c") = Ok (Some m)).
  { rewrite (load_read Y _ _ s); [now rewrite Hp|]. reflexivity. }
  split; [exact Hl|]. split.
  { intros ->. specialize (Hg (b "timeout")). discriminate. }
  split.
  - apply moments_in.
    destruct (set_config (MkConfig 7 false 30 (b "/n")) (Some m)) as [m1| |] eqn:Es; [|discriminate|discriminate].
    destruct (y_prints Y HY m1) as [s1 Hs1].
    unfold save_config, bind, lift. rewrite Es, Hs1.
    change (io_stat (b "/c") w) with (w, @Ok (option node) (Some NDir)). cbn [ret].
    unfold write_file, bind.
    change (open_trunc (join_path [b "/c"; config_file]) 420 w)
      with (put_fs f w, @Ok (option loc) (Some [config_file; b "c"])).
    unfold write_bytes. change (w_faults (put_fs f w)) with (@nil (option nat)). cbn iota.
    assert (Hin : In (EFs f) (w_trace (append_bytes [config_file; b "c"] s1 (put_fs f w)))).
    { apply append_keeps_trace. left. reflexivity. }
    exact Hin.
  - intros C U tz O T render cmd w2 Hc Hd. apply empty_settings_panic; [exact Hc|].
    rewrite Hd. rewrite (load_read Y _ _ []); [now rewrite (y_empty Y HY)|]. reflexivity.
Qed.
Print Assumptions C45_crash_while_saving_refuted.

Lemma crash_while_saving : forall Y dir c m w s m1 f,
  set_config c (Some m) = Ok m1 -> y_print Y m1 = Some s ->
  dir <> [] -> ~ In dotdot (split_slash dir) -> w_trace w = [] ->
  In f (moments (fst (save_config Y dir c (Some m) w))) ->
  let file := place (d_cwd (w_disk w)) (settings_file dir) in
  (fs_get f file = fs_get (w_fs w) file \/ exists n mode, fs_get f file = Some (NFile (firstn n s) mode)) /\
  (forall k, k <> file -> fs_get f k = fs_get (w_fs w) k \/ (fs_get (w_fs w) k = None /\ fs_get f k = Some NDir)).
Proof.
  intros Y dir c m w s m1 f Hs Hp Hne Hdd Ht Hin file.
  set (I := fun f =>
    (fs_get f file = fs_get (w_fs w) file \/ exists n mode, fs_get f file = Some (NFile (firstn n s) mode)) /\
    (forall k, k <> file -> fs_get f k = fs_get (w_fs w) k \/ (fs_get (w_fs w) k = None /\ fs_get f k = Some NDir))).
  assert (Hfile : file = config_file :: place (d_cwd (w_disk w)) dir).
  { unfold file, settings_file. rewrite place_join by exact Hne.
    rewrite split_slash_plain by (intros H; vm_compute in H; intuition discriminate).
    apply lexical_normal. repeat split; discriminate. }
  assert (HJ : always (env w) I w).
  { rewrite <- Ht. apply since_start; [reflexivity|]. split; [left; reflexivity|intros; left; reflexivity]. }
  assert (HD : forall k f, k <> file -> I f -> fs_get f k = None -> I (fs_set k NDir f)).
  { intros k g Hk [G1 G2] Hg. assert (Hkn : fs_get (w_fs w) k = None) by (destruct (G2 k Hk) as [X|[_ X]]; congruence). split.
    - rewrite fs_get_set_other by congruence. exact G1.
    - intros k' Hk'. destruct (loc_eqb k' k) eqn:E.
      + apply loc_eqb_eq in E. subst k'. right. split; [exact Hkn|].
        apply fs_get_set_same. destruct k; [discriminate|congruence].
      + apply loc_eqb_neq in E. rewrite fs_get_set_other by exact E. auto. }
  assert (HW : forall f m0 n', I f -> I (fs_set file (NFile (firstn n' s) m0) f)).
  { intros g m0 n' [G1 G2]. split.
    - right. exists n', m0. apply fs_get_set_same. rewrite Hfile. discriminate.
    - intros k Hk. rewrite fs_get_set_other by exact Hk. auto. }
  assert (HM : always (env w) I (fst (match stat (w_disk w) dir with None => mkdir_all dir | Some _ => ret true end w))).
  { destruct (stat (w_disk w) dir); [exact HJ|]. unfold mkdir_all. destruct dir as [|d0 d1]; [congruence|].
    set (dir := d0 :: d1) in *.
    destruct (missing_dirs (w_fs w) _ (split_slash dir)) as [ls|] eqn:Em; [|exact HJ].
    apply keeps_make_dirs; [|exact HJ]. intros k g Hk. apply HD.
    assert (Hmi := missing_in _ _ _ _ _ Em Hk). destruct Hmi as (xs & ys & Hx & ->).
    intros Heq. assert (Hb := lexical_prefix xs (if rooted dir then [] else d_cwd (w_disk w)) ys).
    rewrite <- Hx in Hb. specialize (Hb Hdd). apply below_length in Hb.
    rewrite Heq, Hfile in Hb. unfold place in Hb. cbn [length] in Hb. lia. }
  assert (HF : always (env w) I (fst (save_config Y dir c (Some m) w))).
  { unfold save_config, bind, lift. rewrite Hs, Hp. unfold io_stat.
    destruct (match stat (w_disk w) dir with None => mkdir_all dir | Some _ => ret true end w) as [w1 r1] eqn:E1.
    cbn [fst] in HM. destruct r1 as [ok| |n]; [|exact HM|exact HM].
    assert (HJ2 : always (env w) I (fst (write_file (join_path [dir; config_file]) s 420 w1))).
    { destruct (resolve_new (w_disk w1) (join_path [dir; config_file])) as [l|] eqn:Er.
      - assert (l = file).
        { apply resolve_new_place in Er. rewrite Er. destruct HM as (He & _ & _). unfold env in He.
          assert (Hc : d_cwd (w_disk w1) = d_cwd (w_disk w)) by congruence. rewrite Hc. reflexivity. }
        subst l. apply (always_rewrite [] (env w) I _ s 420 file w1 HM Er).
        + intros g m0 n n' HI _. now apply HW.
        + intros g m0 HI _. now apply (HW g m0 0).
      - unfold write_file, bind, open_trunc. rewrite Er. exact HM. }
    destruct (write_file (join_path [dir; config_file]) s 420 w1) as [w2 [[|]| |n]]; exact HJ2. }
  apply always_moments in HF. destruct HF as (_ & _ & HF). rewrite Forall_forall in HF. exact (HF f Hin).
Qed.

(** The settings that are saved: the four that the program knows, and the others as they are. *)
Definition to_save (c : config) (m m1 : gmap yval) : Prop :=
  mget k_vault m1 = Some (YStr (cfg_vault c)) /\ mget k_timeout m1 = Some (YInt (cfg_timeout c)) /\
  mget k_notify m1 = Some (YBool (cfg_notify c)) /\ mget k_period m1 = Some (YInt (cfg_period c)) /\
  forall k, ~ In k known -> mget k m1 = mget k m.

(** What remains true at every moment of a save, for a directory without ".." in its
    path: the settings file is as before or holds a prefix of the new text; nothing else
    changes except that missing directories are made. *)
Theorem C45_crash_while_saving_partial : forall Y dir c m w f,
  dir <> [] -> ~ In dotdot (split_slash dir) -> w_trace w = [] ->
  In f (moments (fst (save_config Y dir c (Some m) w))) ->
  let file := place (d_cwd (w_disk w)) (settings_file dir) in
  (fs_get f file = fs_get (w_fs w) file \/
   exists m1 s n mode, to_save c m m1 /\ y_print Y m1 = Some s /\ fs_get f file = Some (NFile (firstn n s) mode)) /\
  (forall k, k <> file -> fs_get f k = fs_get (w_fs w) k \/ (fs_get (w_fs w) k = None /\ fs_get f k = Some NDir)).
Proof.
  intros Y dir c m w f Hne Hdd Ht Hin file.
  assert (Hs : exists m1, set_config c (Some m) = Ok m1) by (eexists; reflexivity). destruct Hs as (m1 & Hs).
  destruct (y_print Y m1) as [s|] eqn:Hp.
  - destruct (crash_while_saving Y dir c m w s m1 f Hs Hp Hne Hdd Ht Hin) as [H1 H2]. split; [|exact H2].
    destruct H1 as [H1|(n & mode & H1)]; [now left|]. right. exists m1, s, n, mode. split; [|auto].
    destruct (set_config_get _ _ _ Hs) as (G1 & G2 & G3 & G4 & G5 & _). repeat split; assumption.
  - exfalso. unfold save_config, bind, lift in Hin. rewrite Hs, Hp in Hin. unfold fatal in Hin. cbn [fst] in Hin.
    unfold moments in Hin. rewrite Ht in Hin. exact Hin.
Qed.
Print Assumptions C45_crash_while_saving_partial.

Example C45_example : ~ In dotdot (split_slash (b "/c")) /\
  length (moments (fst (save_config toy_yaml (b "/c") (MkConfig 7 false 30 (b "/n")) (Some demo_settings) conf_world))) = 146.
Proof.
  split.
  - intros H. vm_compute in H. intuition discriminate.
  - vm_compute. reflexivity.
Qed.

(** ** C46 *)

(** No file: loading comes back, the settings count as missing and have their defaults. *)
Theorem C46_no_file_defaults : forall Y D dir,
  stat D (settings_file dir) = None ->
  exists m, load_config Y D dir = Ok m /\ is_available m = false /\
    get_config m = Ok (MkConfig 1 true 1 []).
Proof.
  intros Y D dir H. exists (Some []). unfold load_config. fold (settings_file dir). rewrite H.
  repeat split.
Qed.
Print Assumptions C46_no_file_defaults.

(** With a file: every key that is missing has its own default, every other key its value. *)
Theorem C46_missing_keys_default : forall Y D dir m c,
  holds Y D dir m -> load_config Y D dir = Ok (Some m) /\ is_available (Some m) = (if m then false else true) /\
  (get_config (Some m) = Ok c ->
   cfg_timeout c = match value (b "timeout") m with Some (YInt z) => z | _ => 1%Z end /\
   cfg_period c = match value (b "update-period") m with Some (YInt z) => z | _ => 1%Z end /\
   cfg_notify c = match value (b "update-notification") m with Some (YBool v) => v | _ => true end /\
   (value (b "opvault") m = None -> cfg_vault c = []) /\
   (forall s, value (b "opvault") m = Some (YStr s) -> cfg_vault c = s)).
Proof.
  intros Y D dir m c (s & Hr & Hp). split; [|split].
  - rewrite (load_read _ _ _ s Hr). now rewrite Hp.
  - destruct m; reflexivity.
  - intros Hc. destruct (get_config_value m c Hc) as (H1 & H2 & H3 & H4).
    fold k_timeout k_period k_notify k_vault.
    split; [destruct H1 as [[-> ->]| ->]; reflexivity|].
    split; [destruct H2 as [[-> ->]| ->]; reflexivity|].
    split; [destruct H3 as [[-> ->]| ->]; reflexivity|].
    split.
    + intros E. destruct H4 as [[_ ->]|(v & Hv & _)]; congruence.
    + intros s' E. destruct H4 as [[Hv _]|(v & Hv & ->)]; [congruence|]. rewrite E in Hv. now injection Hv as <-.
Qed.
Print Assumptions C46_missing_keys_default.

Example C46_example :
  stat (w_disk conf_world) (settings_file (b "/d")) = None /\
  holds toy_yaml (w_disk conf_world) (b "/c") demo_settings /\
  get_config (Some demo_settings) = Ok (MkConfig 5 true 1 (b "/v")).
Proof.
  split; [vm_compute; reflexivity|]. split; [|vm_compute; reflexivity].
  eexists. split; vm_compute; reflexivity.
Qed.

(** ** C47 *)

(** A run of [configure] that succeeds: the settings before and after. *)
Definition configured (Y : yaml) (dir : bytes) (w w' : world) (c c' : config) : Prop :=
  exists m m', load_config Y (w_disk w) dir = Ok (Some m) /\ get_config (Some m) = Ok c /\
    holds Y (w_disk w') dir m' /\ get_config (Some m') = Ok c'.

(** An answer to a question for a number between [lo] and [hi]. *)
Definition number_answer (lo hi old : Z) (line : bytes) (new : Z) : Prop :=
  (exists z, numeral line z /\ (lo <= z <= hi)%Z /\ new = z) \/
  ((forall z, numeral line z -> ~ (lo <= z <= hi)%Z) /\ new = old).

(** An answer to a yes/no question. *)
Definition yes_no_answer (old : bool) (line : bytes) (new : bool) : Prop :=
  ((line = b "y" \/ line = b "Y") /\ new = true) \/
  ((line = b "n" \/ line = b "N") /\ new = false) \/
  (~ In line [b "y"; b "Y"; b "n"; b "N"] /\ new = old).

Lemma configure_result C U tz O Y T render dir w w' :
  yaml_ok Y -> process C U tz O Y T render dir CmdConfigure w = (w', Ok tt) ->
  exists c, configured Y dir w w' c (dialogue U c (w_stdin w)).
Proof.
  intros HY H. unfold process in H. destruct (load_config Y (w_disk w) dir) as [m| |n] eqn:El; try discriminate.
  cbn [run_command] in H. destruct (configure U Y dir (MkApp w m init)) as [a r] eqn:Ec.
  assert (Hr : r = Ok tt) by congruence. assert (Hw : a_world a = w') by congruence. clear H. subst r w'.
  apply configure_ok in Ec. cbn [a_world a_conf] in Ec. destruct Ec as (c & a1 & w2 & m2 & Hc & _ & _ & Hs & _ & Hd & _).
  destruct m as [m|]; [|discriminate].
  assert (Hn := load_nodup _ _ _ _ HY El).
  destruct (save_holds _ _ _ _ _ _ _ HY Hn Hs) as (m' & _ & Hh & G1 & G2 & G3 & G4 & _).
  exists c, m, m'. split; [exact El|]. split; [exact Hc|]. split; [rewrite Hd; exact Hh|].
  now apply get_config_full.
Qed.

Lemma number_ok lo hi old s :
  (min_int64 <= lo)%Z -> (hi <= max_int64)%Z ->
  number_answer lo hi old s (let (z, fine) := parse_int s in if fine && (lo <=? z)%Z && (z <=? hi)%Z then z else old).
Proof.
  intros Hlo Hhi. destruct (parse_int s) as [z [|]] eqn:E; cbn [andb].
  - assert (H := proj1 (parse_int_numeral s z) E). destruct H as [Hn Hr].
    destruct ((lo <=? z)%Z && (z <=? hi)%Z) eqn:Eb.
    + left. exists z. repeat split; [exact Hn|lia|lia].
    + right. split; [|reflexivity]. intros z' Hz' Hb.
      assert (parse_int s = (z', true)) by (apply parse_int_numeral; split; [exact Hz'|lia]).
      assert (z' = z) by congruence. lia.
  - right. split; [|reflexivity]. intros z' Hz' Hb.
    assert (parse_int s = (z', true)) by (apply parse_int_numeral; split; [exact Hz'|lia]). congruence.
Qed.

Lemma yes_no_ok U old s : unicode_ok U ->
  yes_no_answer old s (match lv_from_name U s with Val v => lv_value v | Err _ => old end).
Proof.
  intros HU. destruct (lv_from_name_spec U s HU) as (H1 & H2 & H3).
  destruct (in_dec (list_eq_dec ascii_dec) s [b "y"; b "Y"; b "n"; b "N"]) as [Hi|Hi].
  - destruct Hi as [<-|[<-|[<-|[<-|[]]]]].
    + rewrite (proj2 H1) by auto. left. auto.
    + rewrite (proj2 H1) by auto. left. auto.
    + rewrite (proj2 H2) by auto. right; left. auto.
    + rewrite (proj2 H2) by auto. right; left. auto.
  - rewrite H3 by (intros ->; apply Hi; cbn [In]; auto). right; right. auto.
Qed.

Lemma yes_branch {A} U s (x y : A) : unicode_ok U ->
  match lv_from_name U s with Val v => if lv_value v then x else y | Err _ => y end =
  if in_dec (list_eq_dec ascii_dec) s [b "y"; b "Y"] then x else y.
Proof.
  intros HU. assert (H := yes_no_ok U false s HU). unfold yes_no_answer in H.
  destruct (in_dec _ s [b "y"; b "Y"]) as [Hi|Hi].
  - assert (E : match lv_from_name U s with Val v => lv_value v | Err _ => false end = true).
    { destruct H as [[_ H]|[[H _]|[H _]]]; [exact H| |].
      - exfalso. destruct Hi as [<-|[<-|[]]]; destruct H; discriminate.
      - exfalso. apply H. destruct Hi as [<-|[<-|[]]]; cbn [In]; auto. }
    destruct (lv_from_name U s) as [v|e]; [now rewrite E|discriminate].
  - assert (E : match lv_from_name U s with Val v => lv_value v | Err _ => false end = false).
    { destruct H as [[H _]|[[_ H]|[_ H]]]; [|exact H|exact H].
      exfalso. apply Hi. destruct H as [->| ->]; cbn [In]; auto. }
    destruct (lv_from_name U s) as [v|e]; [now rewrite E|reflexivity].
Qed.

Lemma word_no_space l : word l -> no_space l = true.
Proof. intros H. apply forallb_forall. unfold word in H. rewrite Forall_forall in H. intros r Hr. now rewrite (H r Hr). Qed.

(** Whatever is typed: a stored timeout or period is in range unless it is the old one. *)
Theorem C47_range_kept : forall C U tz O Y T render dir w w',
  yaml_ok Y -> process C U tz O Y T render dir CmdConfigure w = (w', Ok tt) ->
  exists c c', configured Y dir w w' c c' /\
    (cfg_timeout c' = cfg_timeout c \/ (1 <= cfg_timeout c' <= 30)%Z) /\
    (cfg_period c' = cfg_period c \/ (0 <= cfg_period c' <= 365)%Z).
Proof.
  intros C U tz O Y T render dir w w' HY H.
  destruct (configure_result _ _ _ _ _ _ _ _ _ _ HY H) as [c Hc]. exists c. eexists. split; [exact Hc|].
  unfold dialogue. destruct (scanln (w_stdin w)) as [cf r1].
  set (p := match lv_from_name U cf with Val v => if lv_value v then _ else _ | Err _ => _ end).
  destruct p as [v r2]. destruct (scanln r2) as [ns r3]. destruct (scanln r3) as [ts r4]. destruct (scanln r4) as [ps r5].
  cbn [cfg_timeout cfg_period]. split.
  - destruct (number_ok 1 30 (cfg_timeout c) ts ltac:(unfold min_int64; lia) ltac:(unfold max_int64; lia)) as [(z & _ & Hz & ->)|[_ ->]]; auto.
  - destruct (number_ok 0 365 (cfg_period c) ps ltac:(unfold min_int64; lia) ltac:(unfold max_int64; lia)) as [(z & _ & Hz & ->)|[_ ->]]; auto.
Qed.
Print Assumptions C47_range_kept.

(** With an answer of one word, or nothing, on each line: a number in range and y or n are
    taken, everything else keeps the old value. *)
Theorem C47_answers_taken : forall C U tz O Y T render dir w w' q1 q2 q3 q4 rest,
  yaml_ok Y -> unicode_ok U ->
  process C U tz O Y T render dir CmdConfigure w = (w', Ok tt) ->
  word q1 -> word q2 -> word q3 -> word q4 -> ~ In (utf8_encode q1) [b "y"; b "Y"] ->
  w_stdin w = typed [q1; q2; q3; q4] ++ rest ->
  exists c c', configured Y dir w w' c c' /\
    cfg_vault c' = cfg_vault c /\
    yes_no_answer (cfg_notify c) (utf8_encode q2) (cfg_notify c') /\
    number_answer 1 30 (cfg_timeout c) (utf8_encode q3) (cfg_timeout c') /\
    number_answer 0 365 (cfg_period c) (utf8_encode q4) (cfg_period c').
Proof.
  intros C U tz O Y T render dir w w' q1 q2 q3 q4 rest HY HU H W1 W2 W3 W4 Hy Hin.
  destruct (configure_result _ _ _ _ _ _ _ _ _ _ HY H) as [c Hc]. exists c. eexists. split; [exact Hc|].
  unfold typed in Hin. cbn [flat_map] in Hin. rewrite <- !app_assoc in Hin. cbn [Datatypes.app] in Hin.
  unfold dialogue. rewrite Hin.
  rewrite scanln_line by now apply word_no_space.
  rewrite yes_branch by exact HU. destruct (in_dec _ _ _) as [Hi|_]; [now elim Hy|].
  rewrite !scanln_line by now apply word_no_space.
  cbn [cfg_timeout cfg_period cfg_notify cfg_vault]. split; [reflexivity|].
  split; [now apply yes_no_ok|].
  split; apply number_ok; unfold min_int64, max_int64; lia.
Qed.
Print Assumptions C47_answers_taken.

Definition world_with (fs0 : fs) (input : list rune) : world :=
  MkWorld (MkDisk fs0 [] (fun _ => false)) 18 None [] [] [] input [] [].

(** A file with notifications off, so that [configure] does not use the network. *)
Definition quiet_settings : gmap yval :=
  [(b "opvault", YStr (b "/v")); (b "update-notification", YBool false); (b "timeout", YInt 5)].
Definition quiet_fs : fs :=
  [ ([b "c"], NDir);
    ([config_file; b "c"], NFile (match y_print toy_yaml quiet_settings with Some s => s | None => [] end) 420) ].
Definition demo_configure (input : list rune) :=
  process toy_crypto latin1 utc forwards toy_yaml (fun _ => None) (fun _ => []) (b "/c") CmdConfigure
    (world_with quiet_fs input).
Definition stored_now (r : world * res unit) : res config :=
  match load_config toy_yaml (w_disk (fst r)) (b "/c") with Ok m => get_config m | Panic => Panic | Exit n => Exit n end.

Example C47_example :
  let r := demo_configure (typed [map vb (b "n"); []; map vb (b "31"); map vb (b "7")]) in
  snd r = Ok tt /\ stored_now r = Ok (MkConfig 5 false 7 (b "/v")) /\
  stored_now (demo_configure (typed [[]; map vb (b "y"); map vb (b "+30"); map vb (b "366")])) = Ok (MkConfig 30 true 1 (b "/v")).
Proof. vm_compute. repeat split. Qed.

(** ** C48 *)

(** A path typed as one word is stored exactly. *)
Theorem C48_typed_path_stored_partial : forall C U tz O Y T render dir w w' q1 p rest,
  yaml_ok Y -> unicode_ok U ->
  process C U tz O Y T render dir CmdConfigure w = (w', Ok tt) ->
  In (utf8_encode q1) [b "y"; b "Y"] -> word q1 -> word p ->
  w_stdin w = typed [q1; p] ++ rest ->
  exists c c', configured Y dir w w' c c' /\ cfg_vault c' = utf8_encode p.
Proof.
  intros C U tz O Y T render dir w w' q1 p rest HY HU H Hy W1 W2 Hin.
  destruct (configure_result _ _ _ _ _ _ _ _ _ _ HY H) as [c Hc]. exists c. eexists. split; [exact Hc|].
  unfold typed in Hin. cbn [flat_map] in Hin. rewrite <- !app_assoc in Hin. cbn [Datatypes.app] in Hin.
  unfold dialogue. rewrite Hin. rewrite scanln_line by now apply word_no_space.
  rewrite yes_branch by exact HU. destruct (in_dec _ _ _) as [_|Hi]; [|now elim Hi].
  rewrite scanln_line by now apply word_no_space. cbn [fst snd].
  destruct (scanln rest) as [ns r3]. destruct (scanln r3) as [ts r4]. destruct (scanln r4) as [ps r5].
  cbn [cfg_vault]. apply trim_space_word. now apply word_no_space.
Qed.
Print Assumptions C48_typed_path_stored_partial.

(** The property fails twice.  An empty line does not keep the previous path: it erases it. *)
Theorem C48_empty_line_erases_refuted : forall C U tz O Y T render dir w w' q1 rest,
  yaml_ok Y -> unicode_ok U ->
  process C U tz O Y T render dir CmdConfigure w = (w', Ok tt) ->
  In (utf8_encode q1) [b "y"; b "Y"] -> word q1 ->
  w_stdin w = typed [q1; []] ++ rest ->
  exists c c', configured Y dir w w' c c' /\ cfg_vault c' = [].
Proof.
  intros C U tz O Y T render dir w w' q1 rest HY HU H Hy W1 Hin.
  apply (C48_typed_path_stored_partial C U tz O Y T render dir w w' q1 [] rest); first [assumption|constructor].
Qed.
Print Assumptions C48_empty_line_erases_refuted.

Lemma scanln_space p1 p2 rest :
  no_space p1 = true -> p1 <> [] ->
  fst (scanln (p1 ++ 32%N :: p2 ++ 10%N :: rest)) = utf8_encode p1.
Proof.
  intros H Hn. unfold scanln. rewrite scan_skip_token by assumption.
  destruct (p1 ++ 32%N :: p2 ++ 10%N :: rest) as [|r l] eqn:E; [destruct p1; discriminate|].
  rewrite <- E. rewrite scan_token_app; [reflexivity|exact H|]. right. eauto.
Qed.

(** A path with a blank in it is cut there. *)
Theorem C48_blank_in_path_cut_refuted : forall C U tz O Y T render dir w w' q1 p1 p2 rest,
  yaml_ok Y -> unicode_ok U ->
  process C U tz O Y T render dir CmdConfigure w = (w', Ok tt) ->
  In (utf8_encode q1) [b "y"; b "Y"] -> word q1 -> word p1 -> p1 <> [] ->
  w_stdin w = typed [q1; p1 ++ 32%N :: p2] ++ rest ->
  exists c c', configured Y dir w w' c c' /\ cfg_vault c' = utf8_encode p1.
Proof.
  intros C U tz O Y T render dir w w' q1 p1 p2 rest HY HU H Hy W1 W2 Hne Hin.
  destruct (configure_result _ _ _ _ _ _ _ _ _ _ HY H) as [c Hc]. exists c. eexists. split; [exact Hc|].
  unfold typed in Hin. cbn [flat_map] in Hin. rewrite <- !app_assoc in Hin. cbn [Datatypes.app] in Hin.
  unfold dialogue. rewrite Hin. rewrite scanln_line by now apply word_no_space.
  rewrite yes_branch by exact HU. destruct (in_dec _ _ _) as [_|Hi]; [|now elim Hi].
  rewrite scanln_space by (try assumption; now apply word_no_space).
  destruct (scanln (snd _)) as [ns r3]. destruct (scanln r3) as [ts r4]. destruct (scanln r4) as [ps r5].
  cbn [cfg_vault]. apply trim_space_word. now apply word_no_space.
Qed.
Print Assumptions C48_blank_in_path_cut_refuted.

Example C48_example :
  (let r := demo_configure (typed [map vb (b "y"); map vb (b "/new/vault"); []; []; []]) in
   snd r = Ok tt /\ stored_now r = Ok (MkConfig 5 false 1 (b "/new/vault"))) /\
  (let r := demo_configure (typed [map vb (b "y"); []; []; []; []]) in
   snd r = Ok tt /\ stored_now r = Ok (MkConfig 5 false 1 [])) /\
  (let r := demo_configure (typed [map vb (b "y"); map vb (b "/my vault"); []; []; []]) in
   snd r = Ok tt /\ stored_now r = Ok (MkConfig 5 false 1 (b "/my"))).
Proof. vm_compute. repeat split. Qed.

(** ** C49 *)

(** Reading the settings comes back exactly if the three typed keys have their types. *)
Theorem C49_reading_settings_partial : forall Y D dir m,
  holds Y D dir m ->
  load_config Y D dir = Ok (Some m) /\
  ((exists c, get_config (Some m) = Ok c) <-> well_typed m).
Proof.
  intros Y D dir m (s & Hr & Hp). split; [rewrite (load_read _ _ _ s Hr); now rewrite Hp|].
  fold k_timeout. unfold well_typed. fold k_timeout k_period k_notify.
  unfold get_config, get_notify, get_period, get_timeout. rewrite !cget_value. split.
  - intros [c H].
    destruct (value k_notify m) as [[| | |v|]|]; cbn [rbind] in H; try discriminate;
    destruct (value k_period m) as [[| |z| |]|]; cbn [rbind] in H; try discriminate;
    destruct (value k_timeout m) as [[| |z'| |]|]; cbn [rbind] in H; try discriminate; eauto 10.
  - intros (H1 & H2 & H3).
    destruct H1 as [->|[z1 ->]]; destruct H2 as [->|[z2 ->]]; destruct H3 as [->|[v ->]]; cbn [rbind]; eauto.
Qed.
Print Assumptions C49_reading_settings_partial.

(** The property fails: for every file format there is a well-formed file with which
    reading the settings crashes, and so does [configure], whatever is typed. *)
Theorem C49_wrong_type_crashes_refuted : forall Y, yaml_ok Y ->
  exists D dir m, holds Y D dir m /\ get_config (Some m) = Panic /\
    forall C U tz O T render w, w_disk w = D -> snd (process C U tz O Y T render dir CmdConfigure w) = Panic.
Proof.
  intros Y HY. destruct (y_prints Y HY [(b "timeout", YStr (b "5"))]) as [s Hs].
  destruct (y_back Y HY [(b "timeout", YStr (b "5"))] s) as (m & Hp & Hm & Hg);
    [apply nodup_keys_ok; reflexivity|discriminate|exact Hs|].
  set (D := MkDisk [([b "c"], NDir); ([config_file; b "c"], NFile s 420)] [] (fun _ => false)).
  exists D, (b "/c"), m.
  assert (Hh : holds Y D (b "/c") m) by (exists s; split; [reflexivity|exact Hp]).
  assert (Hc : get_config (Some m) = Panic).
  { unfold get_config, get_notify, get_period, get_timeout, get_vault. rewrite !cget_value. unfold value.
    rewrite !Hg. reflexivity. }
  split; [exact Hh|]. split; [exact Hc|].
  intros C U tz O T render w HD. unfold process. rewrite HD.
  destruct Hh as (s' & Hr & Hp'). rewrite (load_read _ _ _ s' Hr), Hp'.
  cbn [run_command]. unfold configure, cli_check, config_now, bind at 1 2 3, the_conf, lift. cbn [a_conf].
  rewrite Hc. reflexivity.
Qed.
Print Assumptions C49_wrong_type_crashes_refuted.

Example C49_example :
  holds toy_yaml (w_disk conf_world) (b "/c") demo_settings /\ well_typed demo_settings /\ yaml_ok toy_yaml.
Proof.
  split; [|split; [|exact toy_yaml_ok]].
  - eexists. split; vm_compute; reflexivity.
  - repeat split; [right; exists 5%Z|left|left]; vm_compute; reflexivity.
Qed.
