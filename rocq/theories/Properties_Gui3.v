(** What the GUI does to disk and network (C82) and that what is typed leaves no trace (C83). *)
From Verif Require Import Base Utf8 GoStrings Json Civil Crypto Path Fs FsProof Domain Repos Session World WorldProof Config Updater UpdateProof
  Cli CliProof CliEvents Spec_Vault Toy ToyYaml Gui Spec_Gui GuiWorld.
From Verif Require Import Properties_Layout Properties_Config Properties_Update Properties_Check Properties_Cli Properties_Show Properties_End Properties_Gui.

Local Notation newline := World.newline.

(** ** Specification *)

(** How many requests a process has sent. *)
Definition requests (w : world) : nat := length (filter (fun e => match e with EGet _ => true | _ => false end) (w_trace w)).

(** No other process changes files. *)
Definition undisturbed (es : list (oracles * input)) : Prop := Forall (fun e => match snd e with Disk _ => False | _ => True end) es.

(** Two runs that differ only in what is typed (and in the choices of the runtime). *)
Definition same_but_typed (e e' : oracles * input) : Prop :=
  match snd e, snd e' with Typed _, Typed _ => True | i, i' => i = i' end.

(** ** Lemmas *)

Definition no_get (e : ev) : Prop := match e with EGet _ => False | _ => True end.

Lemma requests_tail t w w' : w_trace w' = t ++ w_trace w -> Forall no_get t -> requests w' = requests w.
Proof.
  intros E H. unfold requests. rewrite E, filter_app, app_length. replace (filter _ t) with (@nil ev); [reflexivity|].
  symmetry. clear E. induction H as [|e t He _ IH]; [reflexivity|]. destruct e; try contradiction; exact IH.
Qed.
Lemma emits_requests {A} (m : io A) w : emits no_get m -> requests (fst (m w)) = requests w.
Proof. intros H. destruct (H w) as (t & E & Ht). exact (requests_tail t _ _ E Ht). Qed.

Definition asks {A} (n : nat) (m : io A) : Prop := forall w, requests (fst (m w)) <= n + requests w.
Lemma asks_bind {A B} n k (m : io A) (f : A -> io B) : asks n m -> (forall x, asks k (f x)) -> asks (n + k) (bind m f).
Proof.
  intros Hm Hf w. specialize (Hm w). unfold bind. destruct (m w) as [w1 [x| |j]]; cbn [fst] in *; try lia. specialize (Hf x w1). lia.
Qed.
Lemma asks_none {A} (m : io A) : emits no_get m -> asks 0 m.
Proof. intros H w. rewrite (emits_requests m w H). lia. Qed.

Lemma asks_get u : asks 1 (http_get u).
Proof. intros w. unfold http_get. destruct u; [cbn; lia|]. destruct (w_net w); unfold requests; cbn; lia. Qed.

Lemma asks_facade m f dir : asks 1 (facade_check m f dir).
Proof.
  assert (T : forall d, emits no_get (check_timestamp d)) by (intros d; now apply emits_timestamp).
  apply (asks_bind 0 1); [apply asks_none, emits_lift|]. intros c. unfold check_for_update.
  apply (asks_bind 0 1); [apply asks_none; destruct f; [apply emits_ret|apply emits_should]|]. intros [|]; cbn [negb].
  2: intros w; cbn; lia.
  apply (asks_bind 1 0).
  - apply (asks_bind 1 0); [apply asks_get|]. intros [|body [|]]; apply asks_none; first [apply emits_ret|apply emits_lift].
  - intros [[info|]|e]; apply asks_none; [| |apply emits_ret]; (apply emits_bind; [apply T|]; intros _; apply emits_ret).
Qed.

Definition acts {A} (n : nat) (m : act A) : Prop := forall a, requests (a_world (fst (m a))) <= n + requests (a_world a).
Lemma acts_bind {A B} n k (m : act A) (f : A -> act B) : acts n m -> (forall x, acts k (f x)) -> acts (n + k) (bind m f).
Proof.
  intros Hm Hf w. specialize (Hm w). unfold bind. destruct (m w) as [w1 [x| |j]]; cbn [fst] in *; try lia. specialize (Hf x w1). lia.
Qed.
Lemma acts_none {A} (m : act A) : does no_get m -> acts 0 m.
Proof. intros H a. destruct (H a) as (t & E & Ht). rewrite (requests_tail t _ _ E Ht). lia. Qed.

Lemma acts_check dir : acts 1 (cli_check dir).
Proof.
  assert (S : forall t, does no_get (say t)) by (intros t; now apply does_say).
  apply (acts_bind 0 1); [apply acts_none, does_config_now|]. intros c. destruct (cfg_notify c); [|intros a; cbn; lia].
  apply (acts_bind 0 1); [apply acts_none, does_conf|]. intros m. apply (acts_bind 1 0).
  - intros a. rewrite on_world_eq. apply asks_facade.
  - intros [info|e]; apply acts_none; [apply S|apply does_ret].
Qed.

Lemma acts_first_run U Y dir : acts 1 (first_run U Y dir).
Proof.
  assert (S : forall t, does no_get (say t)) by (intros t; now apply does_say).
  apply (acts_bind 0 1); [apply acts_none, does_conf|]. intros m. destruct (is_available m); [intros a; cbn; lia|].
  apply (acts_bind 0 1); [apply acts_none, S|]. intros _. apply (acts_bind 0 1); [apply acts_none, S|]. intros _.
  apply (acts_bind 1 0); [|intros _; apply acts_none, S]. rewrite configure_eq. apply (acts_bind 1 0); [apply acts_check|].
  intros _. apply acts_none. now apply does_interview.
Qed.

Lemma does_pick (P : ev -> Prop) path : (forall t, P (EOut t)) -> does P (pick_vault path).
Proof.
  intros Po. assert (S := does_say P Po). apply does_bind.
  - destruct path; [|apply does_ret]. apply does_bind; [apply does_config_now|intros c; apply does_ret].
  - intros vault. apply does_bind; [apply does_vault|]. intros [e|]; [|apply does_ret]. apply does_bind; [apply S|intros _; apply does_lift].
Qed.

(** The world of a run, from the start of the screen on. *)
Lemma play_requests C U tz dir center es : forall g, there g ->
  requests (gworld (fst (play C U tz dir center es g))) <= (if g_checking g then 1 else 0) + requests (gworld g).
Proof.
  induction es as [|[O i] es IH]; intros g H; [cbn; lia|]. cbn [play]. unfold bind.
  destruct (step_world C U tz O dir center i g H) as (A & B & D & E).
  assert (N : requests (next_world dir i g) <= (if g_checking g then 1 else 0) + requests (gworld g) /\
              (next_checking i g = true -> requests (next_world dir i g) = requests (gworld g) /\ g_checking g = true)).
  { destruct i; unfold next_world, next_checking; try (split; [exact (Nat.le_add_l _ _)|intros X; split; [reflexivity|exact X]]).
    destruct (g_checking g); [|split; [lia|discriminate]]. split; [apply asks_facade|discriminate]. }
  destruct N as [N1 N2]. destruct (gui_step C U tz O dir center i g) as [g1 [[|]| |n]]; cbn [fst snd] in *.
  2: unfold ret; cbn [fst].
  2,3,4: rewrite A; exact N1.
  specialize (IH g1 D). rewrite (E true eq_refl), A in IH. destruct (next_checking i g).
  - destruct (N2 eq_refl) as [N3 N4]. rewrite N3 in IH. rewrite N4. exact IH.
  - lia.
Qed.

(** A process first settles the configuration and the vault, then makes the screen, then handles events. *)
Definition prelude (U : unicode) (Y : yaml) (dir path : bytes) : act bytes := (first_run U Y dir ;;; pick_vault path)%st.

Lemma start_world center path w h a : match pick_vault path a with
  | (a', Ok v) => exists g r, start_gui center path w h a = (g, r) /\ gworld g = a_world a' /\ gconf g = a_conf a' /\ (forall x, r = Ok x -> there g)
  | (a', _) => exists r, start_gui center path w h a = (blank_gui a' [] w h, r) /\ forall x, r <> Ok x
  end.
Proof.
  unfold start_gui. destruct (pick_vault path a) as [a' [v| |n]].
  - assert (L := layout_world center a' v w h). cbv zeta in L. unfold bind. destruct (layout center (blank_gui a' v w h)) as [g [[|]| |n]]; cbn [fst snd] in L;
      destruct L as (L1 & L2 & L3); unfold ret, os_exit, lift; eexists; eexists; (split; [reflexivity|]); (split; [exact L1|]); (split; [exact L2|]); try discriminate.
    intros _ _. now apply L3.
  - exists Panic. split; [reflexivity|discriminate].
  - exists (Exit n). split; [reflexivity|discriminate].
Qed.

Lemma gui_world C U tz Y dir center path w h es world :
  match load_config Y (w_disk world) dir with
  | Ok m =>
      match prelude U Y dir path (MkApp world m init) with
      | (a, Ok v) => exists g0 r0, gworld g0 = a_world a /\ gconf g0 = a_conf a /\ start_gui center path w h (fst (first_run U Y dir (MkApp world m init))) = (g0, r0) /\
          match r0 with
          | Ok _ => there g0 /\ gui_process C U tz Y dir center path w h es world = play C U tz dir center es g0
          | _ => gui_process C U tz Y dir center path w h es world = (g0, r0)
          end
      | (a, _) => exists r, gui_process C U tz Y dir center path w h es world = (blank_gui a [] w h, r) /\ forall x, r <> Ok x
      end
  | Panic => gui_process C U tz Y dir center path w h es world = (blank_gui (MkApp world None init) [] w h, Panic)
  | Exit n => gui_process C U tz Y dir center path w h es world = (blank_gui (MkApp world None init) [] w h, Exit n)
  end.
Proof.
  unfold gui_process. destruct (load_config Y (w_disk world) dir) as [m| |n]; [|reflexivity|reflexivity].
  unfold prelude, bind. destruct (first_run U Y dir (MkApp world m init)) as [a [x| |n]]; cbn [fst].
  - assert (S := start_world center path w h a). destruct (pick_vault path a) as [a' [v| |n]].
    + destruct S as (g & r & E & S1 & S2 & S3). rewrite E. exists g, r. split; [exact S1|]. split; [exact S2|]. split; [reflexivity|]. destruct r as [y| |n]; [|reflexivity|reflexivity].
      split; [now apply (S3 y)|reflexivity].
    + destruct S as (r & -> & Hr). exists r. destruct r as [y| |n]; [now elim (Hr y)|auto|auto].
    + destruct S as (r & -> & Hr). exists r. destruct r as [y| |n']; [now elim (Hr y)|auto|auto].
  - exists Panic. split; [reflexivity|discriminate].
  - exists (Exit n). split; [reflexivity|discriminate].
Qed.

Lemma does_first_run (P : ev -> Prop) U Y dir :
  (forall t, P (EOut t)) -> (forall f, P (EFs f)) -> P (EGet github_releases) -> does P (first_run U Y dir).
Proof.
  intros Po Pf Pg. apply does_bind; [apply does_conf|]. intros m. destruct (is_available m); [apply does_ret|].
  apply does_bind; [now apply does_say|]. intros _. apply does_bind; [now apply does_say|]. intros _.
  apply does_bind; [now apply does_configure|]. intros _. now apply does_say.
Qed.

Lemma play_emits (P : ev -> Prop) C U tz dir center es : (forall f, P (EFs f)) -> P (EGet github_releases) -> forall g, there g ->
  exists t, w_trace (gworld (fst (play C U tz dir center es g))) = t ++ w_trace (gworld g) /\ Forall P t.
Proof.
  intros Pf Pg. induction es as [|[O i] es IH]; intros g H; [exists []; split; [reflexivity|constructor]|]. cbn [play]. unfold bind.
  destruct (step_world C U tz O dir center i g H) as (A & B & D & E).
  assert (N : exists t, w_trace (next_world dir i g) = t ++ w_trace (gworld g) /\ Forall P t).
  { destruct i; unfold next_world; try (exists []; split; [reflexivity|constructor]).
    destruct (g_checking g); [|exists []; split; [reflexivity|constructor]]. now apply emits_facade_check. }
  destruct N as (t & Et & Ht). destruct (gui_step C U tz O dir center i g) as [g1 [[|]| |n]]; cbn [fst snd] in *.
  2: unfold ret; cbn [fst].
  2,3,4: exists t; rewrite A; auto.
  destruct (IH g1 D) as (t' & Et' & Ht'). exists (t' ++ t). rewrite Et', A, Et, app_assoc. split; [reflexivity|]. apply Forall_app. auto.
Qed.

Lemma gui_emits (P : ev -> Prop) C U tz Y dir center path w h es world : (forall t, P (EOut t)) -> (forall f, P (EFs f)) -> P (EGet github_releases) ->
  exists t, w_trace (gworld (fst (gui_process C U tz Y dir center path w h es world))) = t ++ w_trace world /\ Forall P t.
Proof.
  intros Po Pf Pg. assert (G := gui_world C U tz Y dir center path w h es world).
  destruct (load_config Y (w_disk world) dir) as [m| |n]; [|rewrite G; exists []; split; [reflexivity|constructor]|rewrite G; exists []; split; [reflexivity|constructor]].
  assert (D : does P (prelude U Y dir path)) by (apply does_bind; [now apply does_first_run|intros _; now apply does_pick]).
  destruct (D (MkApp world m init)) as (t & Et & Ht). destruct (prelude U Y dir path (MkApp world m init)) as [a r]. cbn [fst a_world] in Et.
  destruct r as [v| |n].
  2,3: destruct G as (r & -> & _); exists t; auto.
  destruct G as (g0 & r0 & A & _ & _ & G). destruct r0 as [y| |n].
  2,3: rewrite G; exists t; cbn [fst]; rewrite A; auto.
  destruct G as [H G]. rewrite G. destruct (play_emits P C U tz dir center es Pf Pg g0 H) as (t' & Et' & Ht').
  exists (t' ++ t). rewrite Et', A, Et, app_assoc. split; [reflexivity|]. apply Forall_app. auto.
Qed.

(** With settings that exist nothing is asked. *)
Lemma prelude_available U Y dir path world m : is_available m = true -> prelude U Y dir path (MkApp world m init) = pick_vault path (MkApp world m init).
Proof. intros H. unfold prelude, bind at 1, first_run, bind at 1, the_conf. cbn [a_conf]. rewrite H. reflexivity. Qed.

Lemma prelude_requests U Y dir path world m :
  requests (a_world (fst (prelude U Y dir path (MkApp world m init)))) <= (if is_available m then 0 else 1) + requests world.
Proof.
  destruct (is_available m) eqn:E.
  - rewrite prelude_available by exact E. apply (acts_none _ (does_pick no_get path (fun _ => Logic.I)) (MkApp world m init)).
  - apply (acts_bind 1 0 _ _ (acts_first_run U Y dir) (fun _ => acts_none _ (does_pick no_get path (fun _ => Logic.I))) (MkApp world m init)).
Qed.

Lemma gui_requests C U tz Y dir center path w h es world :
  let n := requests (gworld (fst (gui_process C U tz Y dir center path w h es world))) in
  match load_config Y (w_disk world) dir with
  | Ok m => n <= (if is_available m then 0 else 1) + 1 + requests world
  | _ => n = requests world
  end.
Proof.
  cbv zeta. assert (G := gui_world C U tz Y dir center path w h es world).
  destruct (load_config Y (w_disk world) dir) as [m| |n]; [|rewrite G; reflexivity|rewrite G; reflexivity].
  assert (D := prelude_requests U Y dir path world m). destruct (prelude U Y dir path (MkApp world m init)) as [a r]. cbn [fst] in D.
  set (k := if is_available m then 0 else 1) in *. destruct r as [v| |n].
  2,3: destruct G as (r & -> & _); cbn [fst]; change (gworld (blank_gui a [] w h)) with (a_world a); lia.
  destruct G as (g0 & r0 & A & _ & _ & G). destruct r0 as [y| |n].
  2,3: rewrite G; cbn [fst]; rewrite A; lia.
  destruct G as [H G]. rewrite G. assert (P := play_requests C U tz dir center es g0 H). rewrite A in P.
  destruct (g_checking g0); lia.
Qed.

(** ** C82 *)

(** The GUI never requests anything but the list of releases, and at most twice: once when it is started
    for the first time and asks for settings, once for the line at the top. *)
Theorem C82_requests : forall C U tz Y dir center path w h es world g r,
  gui_process C U tz Y dir center path w h es world = (g, r) ->
  (forall url, happened world (a_world (g_app g)) (EGet url) -> url = b "https://api.github.com/repos/mashmb/1pass/releases") /\
  requests (a_world (g_app g)) <= 2 + requests world /\
  (forall m, load_config Y (w_disk world) dir = Ok m -> is_available m = true -> requests (a_world (g_app g)) <= 1 + requests world).
Proof.
  intros C U tz Y dir center path w h es world g r E. change (a_world (g_app g)) with (gworld g).
  assert (Eg : g = fst (gui_process C U tz Y dir center path w h es world)) by now rewrite E.
  split; [|].
  { intros url Hu. set (P := fun e => match e with EGet u => u = github_releases | _ => True end).
    destruct (gui_emits P C U tz Y dir center path w h es world) as (t & Et & Ht); [exact (fun _ => Logic.I)|exact (fun _ => Logic.I)|reflexivity|].
    rewrite <- Eg in Et. apply (happened_in _ _ _ _ Et) in Hu. rewrite Forall_forall in Ht. exact (Ht _ Hu). }
  assert (G := gui_requests C U tz Y dir center path w h es world). cbv zeta in G. rewrite <- Eg in G.
  destruct (load_config Y (w_disk world) dir) as [m| |n].
  - split; [destruct (is_available m); lia|]. intros m0 E0 E1. assert (m0 = m) by congruence. subst m0. rewrite E1 in G. exact G.
  - split; [lia|]. intros m0 E0 _. discriminate.
  - split; [lia|]. intros m0 E0 _. discriminate.
Qed.
Print Assumptions C82_requests.

Lemma play_keeps (J : world -> Prop) C U tz dir center es : (forall m, keeps J (facade_check m true dir)) -> undisturbed es ->
  forall g, there g -> J (gworld g) -> J (gworld (fst (play C U tz dir center es g))).
Proof.
  intros K. induction es as [|[O i] es IH]; intros Hu g H HJ; [exact HJ|]. cbn [play]. unfold bind.
  assert (Hi := Forall_inv Hu). assert (Hes := Forall_inv_tail Hu). cbn [snd] in Hi.
  destruct (step_world C U tz O dir center i g H) as (A & B & D & E).
  assert (N : J (next_world dir i g)).
  { destruct i; unfold next_world; try exact HJ; [|contradiction]. destruct (g_checking g); [|exact HJ]. now apply K. }
  destruct (gui_step C U tz O dir center i g) as [g1 [[|]| |n]]; cbn [fst snd] in *.
  2: unfold ret; cbn [fst].
  2,3,4: rewrite A; exact N.
  apply IH; [exact Hes|exact D|]. now rewrite A.
Qed.

Lemma stays_pick J path : (forall t, stays J (say t)) -> stays J (pick_vault path).
Proof.
  intros S. apply stays_bind.
  - destruct path; [|apply stays_ret]. apply stays_bind; [apply stays_bind; [apply stays_conf|intros; apply stays_lift]|intros c; apply stays_ret].
  - intros vault. apply stays_bind; [apply stays_vault|]. intros [e|]; [|apply stays_ret]. apply stays_bind; [apply S|intros _; apply stays_lift].
Qed.

Lemma gui_keeps (J : world -> Prop) C U tz Y dir center path w h es world m : load_config Y (w_disk world) dir = Ok m ->
  (forall m, keeps J (facade_check m true dir)) -> (forall a, prelude U Y dir path (MkApp world m init) = a -> J (a_world (fst a))) -> undisturbed es ->
  J (gworld (fst (gui_process C U tz Y dir center path w h es world))).
Proof.
  intros El K Hp Hu. assert (G := gui_world C U tz Y dir center path w h es world). rewrite El in G.
  destruct (prelude U Y dir path (MkApp world m init)) as [a r]. specialize (Hp _ eq_refl). cbn [fst] in Hp. destruct r as [v| |n].
  2,3: destruct G as (r & -> & _); exact Hp.
  destruct G as (g0 & r0 & A & _ & _ & G). destruct r0 as [y| |n].
  2,3: rewrite G; cbn [fst]; rewrite A; exact Hp.
  destruct G as [H G]. rewrite G. apply play_keeps; auto. now rewrite A.
Qed.

(** Unless another process does, nothing changes a file while the GUI runs but the time of the last check and,
    when there were none, the settings. *)
Theorem C82_only_own_files : forall C U tz Y dir center path w h es world g r,
  dir <> [] -> undisturbed es -> gui_process C U tz Y dir center path w h es world = (g, r) ->
  ever world (a_world (g_app g)) (same_but [last_check_place world dir; settings_place world dir] (w_fs world)) /\
  (forall m, load_config Y (w_disk world) dir = Ok m -> is_available m = true ->
     ever world (a_world (g_app g)) (same_but [last_check_place world dir] (w_fs world))).
Proof.
  intros C U tz Y dir center path w h es world g r Hdir Hu E. change (a_world (g_app g)) with (gworld g).
  assert (Eg : g = fst (gui_process C U tz Y dir center path w h es world)) by now rewrite E.
  destruct (load_config Y (w_disk world) dir) as [m| |n] eqn:El.
  2,3: split; [|discriminate]; assert (G := gui_world C U tz Y dir center path w h es world); rewrite El in G; rewrite Eg, G;
    (split; [apply same_start|intros f Hx; now apply (happened_same world) in Hx]).
  assert (D : forall ps f xs ys, let I := same_but ps (w_fs world) in split_slash dir = xs ++ ys -> I f ->
    fs_get f (lexical (if rooted dir then [] else fst (fst (fst (env world)))) xs) = None ->
    I (fs_set (lexical (if rooted dir then [] else fst (fst (fst (env world)))) xs) NDir f)) by (intros; apply same_dir; assumption).
  split.
  - apply since_ever. set (ps := [last_check_place world dir; settings_place world dir]). set (I := same_but ps (w_fs world)).
    assert (I_conf : forall f c0 m0, I f -> I (fs_set (place (fst (fst (fst (env world)))) (join_path [dir; config_file])) (NFile c0 m0) f)).
    { intros f c0 m0 Hf. apply same_set; [right; now left|exact Hf]. }
    assert (I_last : forall f c0 m0, I f -> I (fs_set (place (fst (fst (fst (env world)))) (join_path [dir; last_check_file])) (NFile c0 m0) f)).
    { intros f c0 m0 Hf. apply same_set; [now left|exact Hf]. }
    rewrite Eg. apply (gui_keeps _ _ _ _ _ _ _ _ _ _ _ _ m); [exact El| | |exact Hu].
    + intros m0. apply keeps_bind; [apply keeps_lift|]. intros c. apply (keeps_check (w_trace world) (env world) I dir); [intros; now apply (D ps f xs ys)|exact I_last].
    + intros a <-. set (J := since (w_trace world) (env world) I).
      assert (SS : forall t, stays J (say t)) by (intros; apply stays_world, keeps_print).
      assert (SP : stays J (prelude U Y dir path)).
      { apply stays_bind; [|intros _; now apply stays_pick]. apply stays_bind; [apply stays_conf|]. intros m0. destruct (is_available m0); [apply stays_ret|].
        apply stays_bind; [apply SS|]. intros _. apply stays_bind; [apply SS|]. intros _. apply stays_bind; [|intros _; apply SS].
        apply (stays_configure (w_trace world) (env world) I Y U dir); [intros; now apply (D ps f xs ys)|exact I_conf|exact I_last]. }
      apply SP. apply since_start; [reflexivity|apply same_start].
  - intros m' E' Ha. assert (m' = m) by congruence. subst m'. clear E'.
    apply since_ever. set (ps := [last_check_place world dir]). set (I := same_but ps (w_fs world)).
    assert (I_last : forall f c0 m0, I f -> I (fs_set (place (fst (fst (fst (env world)))) (join_path [dir; last_check_file])) (NFile c0 m0) f)).
    { intros f c0 m0 Hf. apply same_set; [now left|exact Hf]. }
    rewrite Eg. apply (gui_keeps _ _ _ _ _ _ _ _ _ _ _ _ m); [exact El| | |exact Hu].
    + intros m0. apply keeps_bind; [apply keeps_lift|]. intros c. apply (keeps_check (w_trace world) (env world) I dir); [intros; now apply (D ps f xs ys)|exact I_last].
    + intros a <-. rewrite prelude_available by exact Ha.
      assert (SS : forall t, stays (since (w_trace world) (env world) I) (say t)) by (intros; apply stays_world, keeps_print).
      apply (stays_pick _ path SS). apply since_start; [reflexivity|apply same_start].
Qed.
Print Assumptions C82_only_own_files.

Example C82_example :
  let p := demo_gui (vault_world (b "/v") []) (enter_freddy ++ [Checked; Press KDown; Press KEnter]) in
  snd p = Ok true /\ undisturbed (map (pair forwards) (enter_freddy ++ [Checked; Press KDown; Press KEnter])) /\
  requests (a_world (g_app (fst p))) = 1 /\ requests (vault_world (b "/v") []) = 0.
Proof. cbv zeta. split; [vm_compute; reflexivity|]. split; [repeat constructor|]. split; vm_compute; reflexivity. Qed.


(** ** C83 *)

(** Where the world goes while events are handled. *)
Fixpoint walk (dir : bytes) (conf : cmap) (es : list (oracles * input)) (s : world * bool) : world * bool :=
  match es with
  | [] => s
  | (_, i) :: es => walk dir conf es
      match i with
      | Checked => (if snd s then fst (facade_check conf true dir (fst s)) else fst s, false)
      | Disk d => (set_disk d (fst s), snd s)
      | _ => s
      end
  end.
(** The number of events until the GUI is left with ctrl and C. *)
Fixpoint until_quit (es : list (oracles * input)) : nat :=
  match es with
  | [] => 0
  | (_, Press KQuit) :: _ => 1
  | _ :: es => S (until_quit es)
  end.

Lemma walk_app dir conf es es' s : walk dir conf (es ++ es') s = walk dir conf es' (walk dir conf es s).
Proof. revert s. induction es as [|[O i] es IH]; intros s; [reflexivity|]. cbn [Datatypes.app walk]. apply IH. Qed.

Lemma play_walk C U tz dir center es : forall g, there g ->
  exists k, k <= length es /\ gworld (fst (play C U tz dir center es g)) = fst (walk dir (gconf g) (firstn k es) (gworld g, g_checking g)) /\
    forall x, snd (play C U tz dir center es g) = Ok x -> k = until_quit es.
Proof.
  induction es as [|[O i] es IH]; intros g H; [exists 0; repeat split; reflexivity|]. cbn [play]. unfold bind.
  destruct (step_world C U tz O dir center i g H) as (A & B & D & E).
  assert (N : walk dir (gconf g) [(O, i)] (gworld g, g_checking g) = (next_world dir i g, next_checking i g)) by now destruct i.
  assert (Q : snd (gui_step C U tz O dir center i g) = Ok false <-> i = Press KQuit).
  { split; [|intros ->; reflexivity]. intros F. destruct i as [[]| | | |]; try reflexivity; exfalso;
      revert F; unfold gui_step, bind; destruct ((_ ;;? _) g) as [g1 [[|]| |n]]; discriminate. }
  destruct (gui_step C U tz O dir center i g) as [g1 [[|]| |n]]; cbn [fst snd] in *.
  2: unfold ret; cbn [fst snd].
  2,3,4: exists 1; (split; [cbn; lia|]); cbn [firstn]; rewrite N; (split; [exact A|]); intros x Hx; try discriminate Hx.
  2: { assert (i = Press KQuit) as -> by now apply Q. reflexivity. }
  destruct (IH g1 D) as (k & K1 & K2 & K3). exists (S k). split; [cbn; lia|]. cbn [firstn]. split.
  - change ((O, i) :: firstn k es) with ([(O, i)] ++ firstn k es). rewrite walk_app, N, K2, B, (E true eq_refl), A. reflexivity.
  - intros x Hx. rewrite (K3 x Hx). destruct i as [[]| | | |]; try reflexivity. destruct Q as [_ Q]. specialize (Q eq_refl). discriminate Q.
Qed.

Lemma walk_typed dir conf es es' : Forall2 same_but_typed es es' -> forall s, walk dir conf es s = walk dir conf es' s.
Proof.
  induction 1 as [|[O i] [O' i'] es es' H _ IH]; intros s; [reflexivity|]. cbn [walk]. unfold same_but_typed in H. cbn [snd] in H.
  destruct i, i'; try discriminate H; rewrite IH; f_equal; congruence.
Qed.
Lemma quit_typed es es' : Forall2 same_but_typed es es' -> until_quit es = until_quit es'.
Proof.
  induction 1 as [|[O i] [O' i'] es es' H _ IH]; [reflexivity|]. cbn [until_quit]. unfold same_but_typed in H. cbn [snd] in H.
  destruct i, i'; try discriminate H; rewrite ?IH; try reflexivity. assert (k = k0) by congruence. now subst k0.
Qed.
Lemma firstn_typed es es' k : Forall2 same_but_typed es es' -> Forall2 same_but_typed (firstn k es) (firstn k es').
Proof. intros H. revert k. induction H; intros [|k]; cbn [firstn]; constructor; auto. Qed.

Lemma walk_trace dir conf es s : exists t, w_trace (fst (walk dir conf es s)) = t ++ w_trace (fst s).
Proof.
  revert s. induction es as [|[O i] es IH]; intros s; [exists []; reflexivity|]. cbn [walk].
  match goal with |- context [walk dir conf es ?x] => destruct (IH x) as [t E]; assert (N : exists t', w_trace (fst x) = t' ++ w_trace (fst s)) end.
  { destruct i; try (exists []; reflexivity). destruct s as [w [|]]; [|exists []; reflexivity]. cbn [fst snd].
    destruct (emits_facade_check (fun _ => True) (fun _ => Logic.I) Logic.I conf true dir w) as (t' & E' & _). exists t'. exact E'. }
  destruct N as [t' E']. exists (t ++ t'). now rewrite E, E', app_assoc.
Qed.

Lemma firstn_trace dir conf es s i j : i <= j -> exists t, w_trace (fst (walk dir conf (firstn j es) s)) = t ++ w_trace (fst (walk dir conf (firstn i es) s)).
Proof.
  intros H. replace (firstn j es) with (firstn i es ++ skipn i (firstn j es)).
  2: { rewrite <- (firstn_skipn i (firstn j es)) at 2. f_equal. rewrite firstn_firstn. f_equal. lia. }
  rewrite walk_app. apply walk_trace.
Qed.

(** What is typed reaches neither disk nor network nor the terminal's scrollback: two runs that differ only in what
    is typed do the same to the world; should one of them stop early, it has done the beginning of what the other did. *)
Theorem C83_typed_leaves_no_trace : forall C U tz Y dir center path w h es es' world g g' r r',
  Forall2 same_but_typed es es' ->
  gui_process C U tz Y dir center path w h es world = (g, r) -> gui_process C U tz Y dir center path w h es' world = (g', r') ->
  (forall x x', r = Ok x -> r' = Ok x' -> a_world (g_app g) = a_world (g_app g')) /\
  ((exists t, w_trace (a_world (g_app g')) = t ++ w_trace (a_world (g_app g))) \/
   (exists t, w_trace (a_world (g_app g)) = t ++ w_trace (a_world (g_app g')))).
Proof.
  intros C U tz Y dir center path w h es es' world g g' r r' Hs E E'.
  assert (same : g = g' -> (forall x x', r = Ok x -> r' = Ok x' -> a_world (g_app g) = a_world (g_app g')) /\
    ((exists t, w_trace (a_world (g_app g')) = t ++ w_trace (a_world (g_app g))) \/
     (exists t, w_trace (a_world (g_app g)) = t ++ w_trace (a_world (g_app g'))))).
  { intros ->. split; [reflexivity|]. left. exists []. reflexivity. }
  assert (G := gui_world C U tz Y dir center path w h es world). assert (G' := gui_world C U tz Y dir center path w h es' world).
  rewrite E in G. rewrite E' in G'.
  destruct (load_config Y (w_disk world) dir) as [m| |n]; [|apply same; congruence|apply same; congruence].
  destruct (prelude U Y dir path (MkApp world m init)) as [a [v| |n]].
  2,3: destruct G as (q & G & _), G' as (q' & G' & _); apply same; congruence.
  destruct G as (g0 & r0 & A & B & S & G), G' as (g0' & r0' & A' & B' & S' & G').
  assert (X : g0 = g0' /\ r0 = r0') by (split; congruence). destruct X as [<- <-]. clear S S' A' B'.
  destruct r0 as [y| |n]; [|apply same; congruence|apply same; congruence].
  destruct G as [H G], G' as [_ G'].
  destruct (play_walk C U tz dir center es g0 H) as (k & _ & K2 & K3), (play_walk C U tz dir center es' g0 H) as (k' & _ & K2' & K3').
  rewrite <- G in K2, K3. rewrite <- G' in K2', K3'. cbn [fst snd] in K2, K3, K2', K3'.
  change (a_world (g_app g)) with (gworld g). change (a_world (g_app g')) with (gworld g'). rewrite K2, K2'.
  rewrite <- (walk_typed dir (gconf g0) _ _ (firstn_typed es es' k' Hs)). split.
  - intros x x' Hr Hr'. rewrite (K3 x Hr), (K3' x' Hr'), (quit_typed es es' Hs). reflexivity.
  - destruct (Nat.le_ge_cases k k') as [L|L]; [left|right]; now apply firstn_trace.
Qed.
Print Assumptions C83_typed_leaves_no_trace.

Example C83_example :
  let es := [Typed (b "freddy"); Press KEnter; Checked] in let es' := [Typed (b "krueger"); Press KEnter; Checked] in
  let p := demo_gui (vault_world (b "/v") []) es in let p' := demo_gui (vault_world (b "/v") []) es' in
  Forall2 same_but_typed (map (pair forwards) es) (map (pair forwards) es') /\ snd p = Ok true /\ snd p' = Ok true /\
  is_unlocked (session (fst p)) = true /\ is_unlocked (session (fst p')) = false.
Proof.
  cbv zeta. split; [repeat constructor|]. split; [vm_compute; reflexivity|]. split; [vm_compute; reflexivity|].
  split; vm_compute; reflexivity.
Qed.
