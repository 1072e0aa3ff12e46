(** What the commands print, write, ask and request. *)
From Verif Require Import Base Utf8 GoStrings Json Civil Crypto Path Fs FsProof Domain Repos Session
  World WorldProof Config Updater UpdateProof Cli CliProof.

(** ** Events of the commands *)

(** Running [m] only adds events with the property [P]. *)
Definition does {A} (P : ev -> Prop) (m : act A) : Prop := forall a,
  exists t, w_trace (a_world (fst (m a))) = t ++ w_trace (a_world a) /\ Forall P t.

Section Does.
Variable P : ev -> Prop.

Lemma does_ret {A} (x : A) : does P (ret x).
Proof. intros a. exists []. split; [reflexivity|constructor]. Qed.
Lemma does_lift {A} (x : res A) : does P (lift x).
Proof. intros a. exists []. split; [reflexivity|constructor]. Qed.
Lemma does_conf : does P the_conf.
Proof. intros a. exists []. split; [reflexivity|constructor]. Qed.
Lemma does_vault {A} (f : disk -> state -> res (state * A)) : does P (on_vault f).
Proof.
  intros a. exists []. split; [|constructor]. unfold on_vault.
  destruct (f (w_disk (a_world a)) (a_vault a)) as [[s x]| |n]; reflexivity.
Qed.
Lemma does_world {A} (m : io A) : emits P m -> does P (on_world m).
Proof. intros H a. rewrite on_world_eq. apply H. Qed.
Lemma does_bind {A B} (m : act A) (k : A -> act B) : does P m -> (forall x, does P (k x)) -> does P (bind m k).
Proof.
  intros Hm Hk a. unfold bind. destruct (Hm a) as (t1 & E1 & P1).
  destruct (m a) as [a1 [x| |n]]; cbn [fst] in *; eauto.
  destruct (Hk x a1) as (t2 & E2 & P2). exists (t2 ++ t1). split.
  - rewrite E2, E1. apply app_assoc.
  - apply Forall_app. auto.
Qed.
Lemma does_config_now : does P config_now.
Proof. apply does_bind; [apply does_conf|]. intros m. apply does_lift. Qed.

Hypothesis Pout : forall t, P (EOut t).

Lemma does_print t : does P (on_world (print t)).
Proof. apply does_world, emits_print, Pout. Qed.
Lemma does_say t : does P (say t).
Proof. apply does_print. Qed.
Lemma does_say_all ls : does P (say_all ls).
Proof. induction ls as [|l ls IH]; cbn [say_all]; [apply does_ret|]. apply does_bind; [apply does_say|]. intros _. exact IH. Qed.
Lemma does_scan : does P (on_world scan).
Proof. apply does_world, emits_scan. Qed.

Hypothesis Pfs : forall f, P (EFs f).

Lemma emits_save_config Y dir c m : emits P (save_config Y dir c m).
Proof.
  apply emits_bind; [apply emits_lift|]. intros m'. destruct (y_print Y m') as [s|]; [|apply emits_lift].
  apply emits_bind; [apply emits_stat|]. intros d.
  apply emits_bind; [destruct d; [apply emits_ret|now apply emits_mkdir]|]. intros _.
  apply emits_bind; [now apply emits_write_file|]. intros [|]; [|apply emits_lift].
  apply emits_none. reflexivity.
Qed.
Lemma does_save_now Y dir c : does P (save_now Y dir c).
Proof.
  intros a. unfold save_now. destruct (emits_save_config Y dir c (a_conf a) (a_world a)) as (t & E & Ht).
  exists t. destruct (save_config Y dir c (a_conf a) (a_world a)) as [w [m| |n]]; auto.
Qed.

Hypothesis Pget : P (EGet github_releases).

Lemma emits_should p dir : emits P (should_check p dir).
Proof.
  apply emits_bind; [apply emits_stat|]. intros s. apply emits_bind; [apply emits_read|]. intros c.
  destruct (parse_int _) as [z fine]. apply emits_bind; [apply emits_now|]. intros t. apply emits_ret.
Qed.
Lemma emits_check p f dir : emits P (check_for_update p f dir).
Proof.
  apply emits_bind; [destruct f; [apply emits_ret|apply emits_should]|]. intros [|]; [|apply emits_ret]. cbn [negb].
  apply emits_bind; [now apply emits_fetch|]. intros [[info|]|e]; [| |apply emits_ret];
    (apply emits_bind; [now apply emits_timestamp|]; intros _; apply emits_ret).
Qed.
Lemma emits_facade_check m f dir : emits P (facade_check m f dir).
Proof. apply emits_bind; [apply emits_lift|]. intros c. apply emits_check. Qed.
Lemma does_check dir : does P (cli_check dir).
Proof.
  apply does_bind; [apply does_config_now|]. intros c. destruct (cfg_notify c); [|apply does_ret].
  apply does_bind; [apply does_conf|]. intros m.
  apply does_bind; [apply does_world, emits_facade_check|].
  intros [info|e]; [apply does_say|apply does_ret].
Qed.
End Does.

(** What follows the check in [configure]. *)
Definition interview (U : unicode) (Y : yaml) (dir : bytes) : act unit :=
  (c <- config_now ;;
   say (b "Detailed configuration manual can be found online: https://github.com/mashmb/1pass#configuration") ;;;
   say (b "Configuring 1pass:") ;;;
   on_world (print (b "  1. Do you want to set default OPVault path? (" ++ lv_name lv_no ++ b ") [y - for yes/n - for no]: ")) ;;;
   confirm <- on_world scan ;;
   vault <- (match lv_from_name U confirm with
             | Val v =>
                 if lv_value v then
                   on_world (print (b "     Default OPVault path (" ++ cfg_vault c ++ b "): ")) ;;;
                   s <- on_world scan ;;
                   ret (trim_space s)
                 else ret (cfg_vault c)
             | Err _ => ret (cfg_vault c)
             end) ;;
   t <- lift (lv_text (lv_from_value (cfg_notify c))) ;;
   on_world (print (b "  2. Update notifications? (" ++ t ++ b ") [y - for yes/n - for no]: ")) ;;;
   ns <- on_world scan ;;
   let notify := match lv_from_name U ns with Val v => lv_value v | Err _ => cfg_notify c end in
   on_world (print (b "  3. Update HTTP timeout in seconds (" ++ itoa (cfg_timeout c) ++ b ") [1-30]: ")) ;;;
   ts <- on_world scan ;;
   let timeout := let (z, fine) := parse_int ts in
                  if fine && (1 <=? z)%Z && (z <=? 30)%Z then z else cfg_timeout c in
   on_world (print (b "  4. How often check for updates in days (" ++ itoa (cfg_period c) ++ b ") [0-365]: ")) ;;;
   ps <- on_world scan ;;
   let period := let (z, fine) := parse_int ps in
                 if fine && (0 <=? z)%Z && (z <=? 365)%Z then z else cfg_period c in
   save_now Y dir (MkConfig timeout notify period vault) ;;;
   say (b "1pass configured"))%st.

Lemma configure_eq U Y dir : configure U Y dir = (cli_check dir ;;; interview U Y dir)%st.
Proof. reflexivity. Qed.

Lemma does_interview (P : ev -> Prop) U Y dir :
  (forall t, P (EOut t)) -> (forall f, P (EFs f)) -> does P (interview U Y dir).
Proof.
  intros Po Pf. unfold interview.
  assert (Hp := does_print P Po). assert (Hs := does_say P Po). assert (Hsc := does_scan P).
  apply does_bind; [apply does_config_now|]. intros c.
  apply does_bind; [apply Hs|]. intros _. apply does_bind; [apply Hs|]. intros _.
  apply does_bind; [apply Hp|]. intros _. apply does_bind; [exact Hsc|]. intros confirm.
  apply does_bind.
  { destruct (lv_from_name U confirm) as [v|e]; [|apply does_ret]. destruct (lv_value v); [|apply does_ret].
    apply does_bind; [apply Hp|]. intros _. apply does_bind; [exact Hsc|]. intros s. apply does_ret. }
  intros vault. apply does_bind; [apply does_lift|]. intros t. apply does_bind; [apply Hp|]. intros _.
  apply does_bind; [exact Hsc|]. intros ns. cbv zeta. apply does_bind; [apply Hp|]. intros _.
  apply does_bind; [exact Hsc|]. intros ts. apply does_bind; [apply Hp|]. intros _.
  apply does_bind; [exact Hsc|]. intros ps. apply does_bind; [now apply does_save_now|]. intros _. apply Hs.
Qed.

Lemma does_configure (P : ev -> Prop) U Y dir :
  (forall t, P (EOut t)) -> (forall f, P (EFs f)) -> P (EGet github_releases) -> does P (configure U Y dir).
Proof.
  intros Po Pf Pg. rewrite configure_eq. apply does_bind; [now apply does_check|].
  intros _. now apply does_interview.
Qed.

(** Before a vault is looked at. *)
Definition prepare (U : unicode) (Y : yaml) (dir : bytes) : act unit := (first_run U Y dir ;;; cli_check dir)%st.

Lemma does_prepare (P : ev -> Prop) U Y dir :
  (forall t, P (EOut t)) -> (forall f, P (EFs f)) -> P (EGet github_releases) -> does P (prepare U Y dir).
Proof.
  intros Po Pf Pg. apply does_bind; [|intros _; now apply does_check].
  apply does_bind; [apply does_conf|]. intros m. destruct (is_available m); [apply does_ret|].
  apply does_bind; [now apply does_say|]. intros _. apply does_bind; [now apply does_say|]. intros _.
  apply does_bind; [now apply does_configure|]. intros _. now apply does_say.
Qed.

(** ** Opening the vault *)

Lemma bind_assoc {S A B D} (m : st S A) (k : A -> st S B) (j : B -> st S D) a :
  bind (bind m k) j a = bind m (fun x => bind (k x) j) a.
Proof. unfold bind. destruct (m a) as [a1 [x| |n]]; reflexivity. Qed.

Section Open.
Variable C : crypto.
Variable U : unicode.
Variable tz : Z -> Z.
Variable O : oracles.
Variable Y : yaml.
Variable T : unpacker.
Variable render : list (list bytes) -> bytes.
Variable dir : bytes.

(** Which vault. *)
Definition choose (path : bytes) : act bytes :=
  (match path with [] => c <- config_now ;; ret (cfg_vault c) | _ => ret path end)%st.

Definition enter (vault : bytes) : act unit :=
  (e <- on_vault (fun D s => validate D vault s) ;;
   match e with
   | Some err => say (err_text err) ;;; os_exit 1
   | None =>
       say (b "Password:") ;;;
       password <- on_world ask_password ;;
       e <- on_vault (fun D s => unlock C U tz O D vault password s) ;;
       match e with
       | Some err => say (err_text err) ;;; os_exit 1
       | None => ret tt
       end
   end)%st.

Lemma open_vault_eq path a : open_vault C U tz O Y dir path a =
  (prepare U Y dir ;;; vault <- choose path ;; enter vault)%st a.
Proof. unfold prepare. rewrite bind_assoc. reflexivity. Qed.

(** What a command does with the open vault. *)
Definition finish (c : command) : act unit :=
  match c with
  | CmdList _ category title trashed =>
      (let category' := match category with [] => [] | _ => trim_space category end in
       r <- on_vault (fun _ s => Ok (s, match category with
                                   | [] => Val None
                                   | _ => match cat_from_name U (st_reg s) category' with
                                          | Val c => Val (Some c)
                                          | Err e => Err e
                                          end
                                   end)) ;;
       match r with
       | Err e => say (err_text e) ;;; os_exit 1
       | Val cat =>
           let title' := trim_space title in
           items <- on_vault (fun _ s => Ok (s, get_items U O cat title' trashed s)) ;;
           match items with
           | [] =>
               say (b "No results for search (category: " ++ category' ++ b ", name: " ++ title'
                    ++ b ", trashed: " ++ bool_text trashed ++ b ")")
           | _ =>
               say (render ([b "lp."; b "uid"; b "category"; b "title"]
                      :: number_rows 1 (map (fun i => [s_uid i; cat_name (s_cat i); s_title i]) items)))
           end
       end)%st
  | CmdOverview _ uid trashed =>
      (i <- on_vault (fun _ s => Ok (s, get_item uid trashed s)) ;;
       match i with
       | Some i => say_all (item_lines tz true i)
       | None => say (b "Item with UID " ++ uid ++ b " do not exist")
       end)%st
  | CmdDetails _ uid trashed =>
      (i <- on_vault (fun _ s => Ok (s, get_item uid trashed s)) ;;
       match i with
       | Some i => say_all (item_lines tz false i)
       | None => say (b "Item with UID " ++ uid ++ b " do not exist")
       end)%st
  | _ => ret tt
  end.

(** The flag -v of the commands that open a vault. *)
Definition flag_of (c : command) : option bytes :=
  match c with
  | CmdList v _ _ _ | CmdOverview v _ _ | CmdDetails v _ _ => Some v
  | _ => None
  end.

Lemma run_vault_command c v a : flag_of c = Some v ->
  run_command C U tz O Y T render dir c a = (open_vault C U tz O Y dir v ;;; finish c)%st a.
Proof. destruct c; intros [= <-]; reflexivity. Qed.

Definition vault_path (flag : bytes) (m : cmap) : bytes := match flag with [] => get_vault m | _ => flag end.

Lemma get_config_vault m c : get_config m = Ok c -> cfg_vault c = get_vault m.
Proof.
  unfold get_config. destruct (get_notify m); [|discriminate|discriminate]. cbn [rbind].
  destruct (get_period m); [|discriminate|discriminate]. cbn [rbind].
  destruct (get_timeout m); [|discriminate|discriminate]. cbn [rbind]. intros [= <-]. reflexivity.
Qed.

(** Choosing may only fail by a crash on settings that cannot be read. *)
Lemma choose_eq flag a : choose flag a =
  (a, match flag with
      | [] => match get_config (a_conf a) with Ok _ => Ok (vault_path flag (a_conf a)) | Panic => Panic | Exit n => Exit n end
      | _ => Ok (vault_path flag (a_conf a))
      end).
Proof.
  destruct flag as [|c flag]; [|reflexivity]. unfold choose, config_now, bind, the_conf, lift, ret, vault_path.
  destruct (get_config (a_conf a)) as [c| |n] eqn:E; [|reflexivity|reflexivity]. now rewrite (get_config_vault _ _ E).
Qed.

Definition after_ask (w : world) : world := fst (ask_password w).
Definition typed_pass (w : world) : bytes := match w_pass w with p :: _ => p | [] => [] end.

Lemma enter_eq vault a : enter vault a =
  match validate (w_disk (a_world a)) vault (a_vault a) with
  | Ok (s1, Some e) => (MkApp (add_event (EOut (err_text e ++ newline)) (a_world a)) (a_conf a) s1, Exit 1)
  | Ok (s1, None) =>
      let w1 := after_ask (add_event (EOut (b "Password:" ++ newline)) (a_world a)) in
      match unlock C U tz O (w_disk (a_world a)) vault (typed_pass (a_world a)) s1 with
      | Ok (s2, Some e) => (MkApp (add_event (EOut (err_text e ++ newline)) w1) (a_conf a) s2, Exit 1)
      | Ok (s2, None) => (MkApp w1 (a_conf a) s2, Ok tt)
      | Panic => (MkApp w1 (a_conf a) s1, Panic)
      | Exit n => (MkApp w1 (a_conf a) s1, Exit n)
      end
  | Panic => (a, Panic)
  | Exit n => (a, Exit n)
  end.
Proof.
  unfold enter, bind at 1, on_vault at 1.
  destruct (validate (w_disk (a_world a)) vault (a_vault a)) as [[s1 [e|]]| |n]; [reflexivity| |reflexivity|reflexivity].
  unfold bind, say, on_world, println, print, after_ask, ask_password, typed_pass, on_vault.
  cbn [a_world a_conf a_vault w_pass add_event].
  destruct (w_pass (a_world a)) as [|p ps]; cbn [fst w_disk set_pass add_event a_world a_conf a_vault];
    destruct (unlock C U tz O (w_disk (a_world a)) vault _ s1) as [[s2 [e|]]| |n]; reflexivity.
Qed.

Lemma say_all_eq ls : forall a, say_all ls a =
  (MkApp (fold_left (fun w l => add_event (EOut (l ++ newline)) w) ls (a_world a)) (a_conf a) (a_vault a), Ok tt).
Proof.
  induction ls as [|l ls IH]; intros a; [now destruct a|]. cbn [say_all]. unfold bind at 1.
  change (say l a) with (MkApp (add_event (EOut (l ++ newline)) (a_world a)) (a_conf a) (a_vault a), Ok tt).
  cbv iota. rewrite IH. reflexivity.
Qed.

(** The open vault is only read, and only the screen is written. *)
Definition is_out (e : ev) : Prop := match e with EOut _ => True | _ => False end.

Lemma does_finish c : does is_out (finish c).
Proof.
  assert (Ho : forall t, is_out (EOut t)) by (intros t; exact Logic.I).
  destruct c; cbn [finish]; try apply does_ret.
  - apply does_bind; [apply does_vault|]. intros [cat|e].
    + apply does_bind; [apply does_vault|]. intros [|i items]; now apply does_say.
    + apply does_bind; [now apply does_say|]. intros _. apply does_lift.
  - apply does_bind; [apply does_vault|]. intros [i|]; [now apply does_say_all|now apply does_say].
  - apply does_bind; [apply does_vault|]. intros [i|]; [now apply does_say_all|now apply does_say].
Qed.

Definition enters (e : ev) : Prop := e = EAsk \/ is_out e.

Lemma does_enter vault : does enters (enter vault).
Proof.
  assert (Ho : forall t, enters (EOut t)) by (intros t; right; exact Logic.I).
  apply does_bind; [apply does_vault|]. intros [e|].
  - apply does_bind; [now apply does_say|]. intros _. apply does_lift.
  - apply does_bind; [now apply does_say|]. intros _.
    apply does_bind; [apply does_world, emits_ask; now left|]. intros p.
    apply does_bind; [apply does_vault|]. intros [e|]; [|apply does_ret].
    apply does_bind; [now apply does_say|]. intros _. apply does_lift.
Qed.
End Open.

(** ** Invariants of the file system *)

Definition stays {A} (J : world -> Prop) (m : act A) : Prop := forall a, J (a_world a) -> J (a_world (fst (m a))).

Lemma stays_ret {A} J (x : A) : stays J (ret x).
Proof. intros a H. exact H. Qed.
Lemma stays_lift {A} J (x : res A) : stays J (lift x).
Proof. intros a H. exact H. Qed.
Lemma stays_conf J : stays J the_conf.
Proof. intros a H. exact H. Qed.
Lemma stays_world {A} J (m : io A) : keeps J m -> stays J (on_world m).
Proof. intros H a Ha. rewrite on_world_eq. now apply H. Qed.
Lemma stays_vault {A} J (f : disk -> state -> res (state * A)) : stays J (on_vault f).
Proof.
  intros a H. unfold on_vault. destruct (f (w_disk (a_world a)) (a_vault a)) as [[s x]| |n]; exact H.
Qed.
Lemma stays_bind {A B} J (m : act A) (k : A -> act B) : stays J m -> (forall x, stays J (k x)) -> stays J (bind m k).
Proof.
  intros Hm Hk a H. unfold bind. specialize (Hm a H). destruct (m a) as [a1 [x| |n]]; auto. now apply Hk.
Qed.

Lemma since_more B E I w e : (match e with EFs _ => False | _ => True end) -> since B E I w -> since B E I (add_event e w).
Proof. intros. now apply always_event. Qed.

Section Stays.
Variable B : list ev.
Variable E : loc * (loc -> bool) * N * option bytes.
Variable I : fs -> Prop.
Notation J := (since B E I).
Variable Y : yaml.
Variable U : unicode.
Variable dir : bytes.
Let cwd : loc := fst (fst (fst E)).
(** Directories on the way to [dir] may be made, the two files in it may be written. *)
Hypothesis I_dir : forall xs ys f, split_slash dir = xs ++ ys -> I f ->
  fs_get f (lexical (if rooted dir then [] else cwd) xs) = None ->
  I (fs_set (lexical (if rooted dir then [] else cwd) xs) NDir f).
Hypothesis I_conf : forall f c m, I f -> I (fs_set (place cwd (join_path [dir; config_file])) (NFile c m) f).
Hypothesis I_last : forall f c m, I f -> I (fs_set (place cwd (join_path [dir; last_check_file])) (NFile c m) f).

Lemma keeps_mkdir : keeps J (mkdir_all dir).
Proof.
  clear I_conf I_last. intros w H. unfold mkdir_all. destruct dir as [|d0 d1] eqn:Ed; [exact H|]. rewrite <- Ed in *.
  destruct (missing_dirs _ _ _) as [ls|] eqn:Em; [|exact H].
  apply keeps_make_dirs; [|exact H]. intros l f Hl HI Hg.
  destruct (missing_in _ _ _ _ _ Em Hl) as (xs & ys & Hx & Hl').
  assert (Hc : d_cwd (w_disk w) = cwd) by (unfold cwd; rewrite <- (proj1 H); reflexivity).
  rewrite Hc in Hl'. subst l. now apply (I_dir xs ys).
Qed.

Lemma keeps_timestamp : keeps J (check_timestamp dir).
Proof.
  apply keeps_bind; [apply keeps_now|]. intros t. apply keeps_bind; [apply keeps_stat|]. intros d.
  apply keeps_bind; [destruct d; [apply keeps_ret|apply keeps_mkdir]|]. intros _.
  apply keeps_bind; [|intros _; apply keeps_ret]. apply keeps_write_file.
  - intros f c m c' HI _. now apply I_last.
  - intros f HI _. now apply I_last.
Qed.

Lemma keeps_check p force : keeps J (check_for_update p force dir).
Proof.
  apply keeps_bind.
  { destruct force; [apply keeps_ret|]. unfold should_check. apply keeps_bind; [apply keeps_stat|]. intros s.
    apply keeps_bind; [apply keeps_read|]. intros c. destruct (parse_int _) as [z fine].
    apply keeps_bind; [apply keeps_now|]. intros t. apply keeps_ret. }
  intros [|]; [|apply keeps_ret]. cbn [negb]. apply keeps_bind; [apply keeps_fetch|].
  intros [[info|]|e]; [| |apply keeps_ret]; (apply keeps_bind; [apply keeps_timestamp|]; intros _; apply keeps_ret).
Qed.

Lemma stays_say t : stays J (say t).
Proof. apply stays_world, keeps_print. Qed.

Lemma stays_check : stays J (cli_check dir).
Proof.
  apply stays_bind; [apply stays_bind; [apply stays_conf|intros m; apply stays_lift]|].
  intros c. destruct (cfg_notify c); [|apply stays_ret]. apply stays_bind; [apply stays_conf|]. intros m.
  apply stays_bind.
  - apply stays_world. apply keeps_bind; [apply keeps_lift|]. intros c'. apply keeps_check.
  - intros [info|e]; [apply stays_say|apply stays_ret].
Qed.

Lemma keeps_save_config c m : keeps J (save_config Y dir c m).
Proof.
  apply keeps_bind; [apply keeps_lift|]. intros m'. destruct (y_print Y m') as [s|]; [|apply keeps_lift].
  apply keeps_bind; [apply keeps_stat|]. intros d.
  apply keeps_bind; [destruct d; [apply keeps_ret|apply keeps_mkdir]|]. intros _.
  apply keeps_bind; [|intros [|]; [intros w H; exact H|apply keeps_lift]]. apply keeps_write_file.
  - intros f c0 m0 c' HI _. now apply I_conf.
  - intros f HI _. now apply I_conf.
Qed.

Lemma stays_save_now c : stays J (save_now Y dir c).
Proof.
  intros a H. assert (Hk := keeps_save_config c (a_conf a) (a_world a) H). unfold save_now.
  destruct (save_config Y dir c (a_conf a) (a_world a)) as [w [m| |n]]; exact Hk.
Qed.

Lemma stays_print t : stays J (on_world (print t)).
Proof. apply stays_world, keeps_print. Qed.
Lemma stays_scan : stays J (on_world scan).
Proof. apply stays_world, keeps_scan. Qed.

Lemma stays_interview : stays J (interview U Y dir).
Proof.
  unfold interview. apply stays_bind; [apply stays_bind; [apply stays_conf|intros m; apply stays_lift]|]. intros c.
  apply stays_bind; [apply stays_say|]. intros _. apply stays_bind; [apply stays_say|]. intros _.
  apply stays_bind; [apply stays_print|]. intros _. apply stays_bind; [apply stays_scan|]. intros confirm.
  apply stays_bind.
  { destruct (lv_from_name U confirm) as [v|e]; [|apply stays_ret]. destruct (lv_value v); [|apply stays_ret].
    apply stays_bind; [apply stays_print|]. intros _. apply stays_bind; [apply stays_scan|]. intros s. apply stays_ret. }
  intros vault. apply stays_bind; [apply stays_lift|]. intros t. apply stays_bind; [apply stays_print|]. intros _.
  apply stays_bind; [apply stays_scan|]. intros ns. cbv zeta. apply stays_bind; [apply stays_print|]. intros _.
  apply stays_bind; [apply stays_scan|]. intros ts. apply stays_bind; [apply stays_print|]. intros _.
  apply stays_bind; [apply stays_scan|]. intros ps. apply stays_bind; [apply stays_save_now|]. intros _. apply stays_say.
Qed.

Lemma stays_configure : stays J (configure U Y dir).
Proof. rewrite configure_eq. apply stays_bind; [apply stays_check|]. intros _. apply stays_interview. Qed.

Lemma stays_prepare : stays J (prepare U Y dir).
Proof.
  apply stays_bind; [|intros _; apply stays_check].
  apply stays_bind; [apply stays_conf|]. intros m. destruct (is_available m); [apply stays_ret|].
  apply stays_bind; [apply stays_say|]. intros _. apply stays_bind; [apply stays_say|]. intros _.
  apply stays_bind; [apply stays_configure|]. intros _. apply stays_say.
Qed.
End Stays.
