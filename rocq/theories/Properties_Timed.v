(** How long the program waits for servers (C98). *)
From Verif Require Import Base Utf8 GoStrings Json Civil Crypto Path Fs Domain Repos Session World WorldProof Config Updater UpdateProof
  Cli CliProof CliEvents Toy ToyYaml GoTime Timed TimedProof Gui GuiWorld.
From Verif Require Import Properties_Layout Properties_Config Properties_Update Properties_Check Properties_Cli Properties_Show Properties_Effects Properties_Cli2
  Properties_End Properties_Gui Properties_Gui3.

(** ** Specification *)

Definition seconds (n : Z) : Z := (n * 1000000000)%Z.

(** The timeouts that the settings dialogue accepts. *)
Definition sensible (timeout : Z) : Prop := (1 <= timeout <= 30)%Z.

(** A server that cannot be reached. *)
Definition unreachable (s : server) : Prop := sv_connect s = None.

(** A server that takes its time to be reached, if it can be reached at all, but then answers at once. *)
Definition prompt (s : server) : Prop := (forall c, sv_connect s = Some c -> (0 <= c)%Z) /\ sv_rest s = Some 0%Z.

(** What time does not change: a call that ends has done what the model without time says, with the answers of the
    servers that were reached in time. *)
Definition same_as {A} (m : tio A) (m0 : io A) (timeout : Z) (servers : list server) : Prop :=
  forall w t' r, m (MkTimed w servers 0) = Some (t', r) ->
  exists replies rest, length replies = length servers /\
    (forall k s, nth_error servers k = Some s -> exists reply, nth_error replies k = Some reply /\
       ((exists c, sv_connect s = Some c /\ (c < seconds timeout)%Z) -> sv_rest s <> None -> reply = sv_reply s) /\
       ((forall c, sv_connect s = Some c -> (seconds timeout <= c)%Z) -> reply = NetErr)) /\
    m0 (set_net replies w) = (set_net rest (t_world t'), r).

(** ** Lemmas *)

Lemma limit_eq timeout : sensible timeout -> dial_limit timeout = seconds timeout.
Proof.
  unfold sensible, dial_limit, seconds, wrap64. intros H. rewrite Z.mod_small by lia. lia.
Qed.

Lemma refines_same {A} (m : tio A) m0 timeout servers : sensible timeout -> refines timeout m m0 -> same_as m m0 timeout servers.
Proof.
  intros Hs H w t' r E. exists (map (reply timeout) servers), (map (reply timeout) (t_servers t')).
  split; [apply map_length|]. split; [|exact (H _ _ _ E)].
  intros k s Hk. exists (reply timeout s). split; [rewrite nth_error_map, Hk; reflexivity|].
  assert (Hl := limit_eq timeout Hs). assert (0 < seconds timeout)%Z by (unfold seconds, sensible in *; lia).
  unfold reply, exchange, dial. rewrite Hl. replace (seconds timeout <? 0)%Z with false by lia.
  replace (seconds timeout =? 0)%Z with false by lia. cbn [orb]. split.
  - intros (c & Hc & Hlt) Hr. rewrite Hc. replace (c <? seconds timeout)%Z with true by lia.
    destruct (sv_rest s); [reflexivity|congruence].
  - intros Hc. destruct (sv_connect s) as [c|]; [|reflexivity]. specialize (Hc c eq_refl).
    replace (c <? seconds timeout)%Z with false by lia. reflexivity.
Qed.

Lemma prompt_exchange timeout s : sensible timeout -> prompt s -> exists x r, exchange timeout s = Some (x, r) /\ (0 <= x <= seconds timeout)%Z.
Proof.
  intros Hs (Hc & Hr). assert (Hl := limit_eq timeout Hs). assert (0 < seconds timeout)%Z by (unfold seconds, sensible in *; lia).
  unfold exchange, dial. rewrite Hl, Hr. replace (seconds timeout <? 0)%Z with false by lia. replace (seconds timeout =? 0)%Z with false by lia. cbn [orb].
  destruct (sv_connect s) as [c|]; [|eexists; eexists; split; [reflexivity|lia]]. specialize (Hc c eq_refl).
  destruct (c <? seconds timeout)%Z eqn:E; (eexists; eexists; split; [reflexivity|lia]).
Qed.

(** ** C98 *)

(** Whatever the servers do: what a check or an update that comes to an end has done is what the other theorems
    say, with the answer of a server that was connected to in time and an error for one that was not. *)
Theorem C98_check_otherwise_same : forall m cfg force dir servers, get_config m = Ok cfg -> sensible (cfg_timeout cfg) ->
  same_as (timed_facade_check m force dir) (facade_check m force dir) (cfg_timeout cfg) servers.
Proof.
  intros m cfg force dir servers Hc Hs. apply refines_same; [exact Hs|]. unfold timed_facade_check, facade_check. rewrite Hc.
  intros t t' r H. unfold bind, lift. unfold tbind, untimed, lift in H. exact (refines_check _ _ _ _ _ _ _ H).
Qed.
Print Assumptions C98_check_otherwise_same.

Theorem C98_update_otherwise_same : forall C T stage m cfg servers, get_config m = Ok cfg -> sensible (cfg_timeout cfg) ->
  same_as (timed_facade_update C T stage m) (facade_update C T stage m) (cfg_timeout cfg) servers.
Proof.
  intros C T stage m cfg servers Hc Hs. apply refines_same; [exact Hs|]. unfold timed_facade_update, facade_update. rewrite Hc.
  intros t t' r H. unfold bind, lift. unfold tbind, untimed, lift in H. exact (refines_update _ _ _ _ _ _ _ H).
Qed.
Print Assumptions C98_update_otherwise_same.

(** A server that cannot be reached: a forced check gives up with an error after exactly the configured time. *)
Theorem C98_gives_up : forall m cfg dir t s ss, get_config m = Ok cfg -> sensible (cfg_timeout cfg) ->
  t_servers t = s :: ss -> unreachable s ->
  exists t' e, timed_facade_check m true dir t = Some (t', Ok (Err e)) /\ e <> ErrNoUpdate /\
    t_waited t' = (t_waited t + seconds (cfg_timeout cfg))%Z /\ w_disk (t_world t') = w_disk (t_world t).
Proof.
  intros m cfg dir t s ss Hc Hs Ht Hu. unfold timed_facade_check. rewrite Hc.
  unfold tbind at 1, untimed at 1, lift. cbn [t_world t_servers t_waited].
  unfold timed_check, tbind at 1, untimed at 1, ret at 1. cbn [negb t_world t_servers t_waited].
  unfold tbind at 1, timed_fetch, tbind at 1, timed_get. change github_releases with (b "https://api.github.com/repos/mashmb/1pass/releases").
  cbn [b list_ascii_of_string t_servers]. rewrite Ht.
  assert (Hl := limit_eq _ Hs). assert (0 < seconds (cfg_timeout cfg))%Z by (unfold seconds, sensible in *; lia).
  unfold exchange, dial. rewrite Hl, Hu. replace (seconds (cfg_timeout cfg) <? 0)%Z with false by lia.
  replace (seconds (cfg_timeout cfg) =? 0)%Z with false by lia.
  eexists; eexists. split; [reflexivity|]. split; [discriminate|]. split; reflexivity.
Qed.
Print Assumptions C98_gives_up.

(** Partial: if the servers answer as soon as they are connected to, a check waits at most the configured time, and
    the installation of an update, with three requests, at most three times that. *)
Theorem C98_check_bounded_partial : forall m cfg force dir t, get_config m = Ok cfg -> sensible (cfg_timeout cfg) ->
  Forall prompt (t_servers t) ->
  exists t' r, timed_facade_check m force dir t = Some (t', r) /\
    (t_waited t <= t_waited t' <= t_waited t + seconds (cfg_timeout cfg))%Z.
Proof.
  intros m cfg force dir t Hc Hs Hp. unfold timed_facade_check. rewrite Hc. unfold tbind at 1, untimed at 1, lift.
  assert (0 <= seconds (cfg_timeout cfg))%Z by (unfold seconds, sensible in *; lia).
  destruct (waits_check prompt (seconds (cfg_timeout cfg)) H (cfg_timeout cfg) (fun s => prompt_exchange _ s Hs) (cfg_period cfg) force dir
    (MkTimed (t_world t) (t_servers t) (t_waited t)) Hp) as (t' & r & E & _ & W). exists t', r. split; [exact E|]. cbn [t_waited] in W. lia.
Qed.
Print Assumptions C98_check_bounded_partial.

Theorem C98_update_bounded_partial : forall C T stage m cfg t, get_config m = Ok cfg -> sensible (cfg_timeout cfg) ->
  Forall prompt (t_servers t) ->
  exists t' r, timed_facade_update C T stage m t = Some (t', r) /\
    (t_waited t <= t_waited t' <= t_waited t + 3 * seconds (cfg_timeout cfg))%Z.
Proof.
  intros C T stage m cfg t Hc Hs Hp. unfold timed_facade_update. rewrite Hc. unfold tbind at 1, untimed at 1, lift.
  assert (0 <= seconds (cfg_timeout cfg))%Z by (unfold seconds, sensible in *; lia).
  destruct (waits_update prompt (seconds (cfg_timeout cfg)) H (cfg_timeout cfg) (fun s => prompt_exchange _ s Hs) C T stage
    (MkTimed (t_world t) (t_servers t) (t_waited t)) Hp) as (t' & r & E & _ & W). exists t', r. split; [exact E|]. cbn [t_waited] in W. lia.
Qed.
Print Assumptions C98_update_bounded_partial.

(** Refuted for other servers, whatever the timeout of the settings: once connected, a server can keep the program
    waiting for any time, and for ever. *)
Theorem C98_answer_unbounded_refuted : forall m cfg dir w limit, get_config m = Ok cfg -> sensible (cfg_timeout cfg) ->
  (exists s, sv_connect s = Some 0%Z /\ timed_facade_check m true dir (MkTimed w [s] 0) = None) /\
  (exists s, sv_connect s = Some 0%Z /\ exists t' r, timed_facade_check m true dir (MkTimed w [s] 0) = Some (t', r) /\ (limit < t_waited t')%Z).
Proof.
  intros m cfg dir w limit Hc Hs. assert (Hl := limit_eq _ Hs). assert (0 < seconds (cfg_timeout cfg))%Z by (unfold seconds, sensible in *; lia).
  assert (E : forall s, sv_connect s = Some 0%Z -> timed_facade_check m true dir (MkTimed w [s] 0) =
    match sv_rest s with
    | Some d => timed_facade_check m true dir (MkTimed w [s] 0)
    | None => None
    end).
  { intros s Hz. destruct (sv_rest s) eqn:Er; [reflexivity|]. unfold timed_facade_check. rewrite Hc.
    unfold tbind at 1, untimed at 1, lift, timed_check, tbind at 1, untimed at 1, ret at 1. cbn [negb t_world t_servers t_waited].
    unfold tbind at 1, timed_fetch, tbind at 1, timed_get. change github_releases with (b "https://api.github.com/repos/mashmb/1pass/releases").
    cbn [b list_ascii_of_string t_servers]. unfold exchange, dial. rewrite Hl, Hz, Er.
    replace (seconds (cfg_timeout cfg) <? 0)%Z with false by lia. replace (seconds (cfg_timeout cfg) =? 0)%Z with false by lia.
    replace (0 <? seconds (cfg_timeout cfg))%Z with true by lia. reflexivity. }
  split.
  - exists (MkServer (Some 0%Z) None NetErr). split; [reflexivity|]. now rewrite E.
  - exists (MkServer (Some 0%Z) (Some (Z.abs limit + 1)%Z) NetErr). split; [reflexivity|]. clear E.
    unfold timed_facade_check. rewrite Hc.
    unfold tbind at 1, untimed at 1, lift, timed_check, tbind at 1, untimed at 1, ret at 1. cbn [negb t_world t_servers t_waited].
    unfold tbind at 1, timed_fetch, tbind at 1, timed_get. change github_releases with (b "https://api.github.com/repos/mashmb/1pass/releases").
    cbn [b list_ascii_of_string t_servers]. unfold exchange, dial. rewrite Hl. cbn [sv_connect sv_rest sv_reply].
    replace (seconds (cfg_timeout cfg) <? 0)%Z with false by lia. replace (seconds (cfg_timeout cfg) =? 0)%Z with false by lia.
    replace (0 <? seconds (cfg_timeout cfg))%Z with true by lia. cbn [orb].
    eexists; eexists. split; [reflexivity|]. cbn [t_waited]. lia.
Qed.
Print Assumptions C98_answer_unbounded_refuted.

(** Refuted also for the settings file: it may hold 0, and then not even connecting is limited. *)
Theorem C98_zero_is_no_limit_refuted : forall m cfg dir w s, get_config m = Ok cfg -> cfg_timeout cfg = 0%Z ->
  unreachable s -> timed_facade_check m true dir (MkTimed w [s] 0) = None.
Proof.
  intros m cfg dir w s Hc Hz Hu. unfold timed_facade_check. rewrite Hc.
  unfold tbind at 1, untimed at 1, lift, timed_check, tbind at 1, untimed at 1, ret at 1. cbn [negb t_world t_servers t_waited].
  unfold tbind at 1, timed_fetch, tbind at 1, timed_get. change github_releases with (b "https://api.github.com/repos/mashmb/1pass/releases").
  cbn [b list_ascii_of_string t_servers]. unfold exchange, dial. rewrite Hz, Hu. reflexivity.
Qed.
Print Assumptions C98_zero_is_no_limit_refuted.

(** How many requests there can be: with settings a command sends at most one, update at most four. *)
Theorem C98_requests : forall C U tz O Y T render dir c w w' r cfg, settings Y w dir cfg ->
  process C U tz O Y T render dir c w = (w', r) ->
  requests w' <= requests w + (match c with CmdUpdate => 4 | CmdVersion => 0 | _ => 1 end).
Proof.
  intros C U tz O Y T render dir c w w' r cfg (m & Hm & Ha & Hcfg) H. rewrite process_run, Hm in H.
  assert (Hw' : w' = a_world (fst (run_command C U tz O Y T render dir c (MkApp w m init)))) by congruence. subst w'. clear H.
  destruct (command_eq_version c) as [->|Hv].
  { assert (X := acts_none _ (does_say no_get (fun _ => Logic.I) (b "=== " ++ app_version ++ b " ===")) (MkApp w m init)). cbn [run_command a_world] in *. lia. }
  assert (D : c = CmdUpdate \/ c <> CmdUpdate) by (destruct c; first [now left|right; discriminate]). destruct D as [->|Hu].
  - cbn [run_command]. assert (X : acts 4 (run_update C U T dir)); [|specialize (X (MkApp w m init)); cbn [a_world] in X; lia].
    assert (S : forall t, does no_get (say t)) by (intros t; now apply does_say).
    assert (N : forall A (x : res A), acts 0 (lift x)) by (intros A x; apply acts_none, does_lift).
    assert (L : forall A k (x : act A), acts k x -> forall k', k <= k' -> acts k' x) by (intros A k x G k' Hk a; specialize (G a); lia).
    assert (Ab : acts 3 (say (b "Aborting update...") ;;; os_exit 1 : act unit)%st).
    { apply (L _ 0); [|lia]. apply (acts_bind 0 0); [apply acts_none, S|]. intros _. apply N. }
    apply (acts_bind 0 4); [apply acts_none, S|]. intros _. apply (acts_bind 0 4); [apply acts_none, does_conf|]. intros m0.
    apply (acts_bind 1 3); [intros a; rewrite on_world_eq; apply asks_facade|]. intros [info|e].
    2:{ apply (L _ 0); [|lia]. apply (acts_bind 0 0); [apply acts_none, S|]. intros _. apply N. }
    apply (acts_bind 0 3); [apply acts_none, S|]. intros _. apply (acts_bind 0 3); [apply acts_none; now apply does_print|]. intros _.
    apply (acts_bind 0 3); [apply acts_none, does_scan|]. intros answer. destruct (lv_from_name U answer) as [v|e]; [|exact Ab].
    destruct (lv_value v); [|exact Ab]. apply (acts_bind 0 3); [apply acts_none, S|]. intros _. apply (acts_bind 3 0).
    + intros a. rewrite on_world_eq. cbn [fst a_world]. revert a.
      assert (X : asks 3 (facade_update C T stage_text m0)); [|intros a; exact (X (a_world a))].
      assert (Nn : forall A (x : io A), emits no_get x -> asks 0 x) by (intros; now apply asks_none).
      assert (Ll : forall A k (x : io A), asks k x -> forall k', k <= k' -> asks k' x) by (intros A k x G k' Hk a; specialize (G a); lia).
      assert (Ret : forall A (x : A) k, asks k (ret x)) by (intros; apply (Ll _ 0); [apply Nn, emits_ret|lia]).
      assert (Try : forall k k' x y, asks k x -> asks k' y -> asks (k + k') (try_step x y)) by (intros k k' x y Hx Hy; apply asks_bind; [exact Hx|]; intros [|]; [exact Hy|apply Ret]).
      assert (An : forall n, asks 0 (announce stage_text n)) by (intros n; apply Nn; intros w0; eexists [_; _]; split; [reflexivity|]; repeat constructor).
      assert (Dl : forall p u, asks 1 (download p u)).
      { intros p u. apply (asks_bind 1 0); [apply asks_get|]. intros [|body whole]; [apply Ret|]. apply Nn. now apply emits_save. }
      apply (asks_bind 0 3); [apply Nn, emits_lift|]. intros cf. apply (asks_bind 1 2).
      { apply (asks_bind 1 0); [apply asks_get|]. intros [|body [|]]; [apply Ret|apply Nn, emits_lift|apply Ret]. }
      intros [[i|]|e]; [|apply Ret|apply Ret]. destruct (ui_newer i); cbn [negb]; [|apply Ret].
      apply (asks_bind 0 2); [apply An|]. intros _. apply (Try 0 2); [apply Nn; now apply emits_remove|]. apply (Try 0 2); [apply Nn; now apply emits_mkdir|].
      apply (asks_bind 0 2); [apply An|]. intros _. apply (Try 1 1); [apply Dl|].
      apply (asks_bind 0 1); [apply An|]. intros _. apply (Try 1 0); [apply Dl|].
      apply (asks_bind 0 0); [apply An|]. intros _. apply (Try 0 0); [apply Nn; now apply emits_extract|].
      apply (asks_bind 0 0); [apply An|]. intros _. apply (asks_bind 0 0); [apply Nn, emits_validate|]. intros [e|]; [apply Ret|].
      apply (asks_bind 0 0); [apply An|]. intros _. apply (Try 0 0); [apply Nn; now apply emits_replace|].
      apply (asks_bind 0 0); [apply An|]. intros _. apply (Try 0 0); [apply Nn; now apply emits_remove|apply Ret].
    + intros [err|]; [|apply acts_none, S]. apply (acts_bind 0 0); [apply acts_none, S|]. intros _. apply N.
  - destruct (run_after_check no_get C U tz O Y T render dir c (MkApp w m init)
        (fun _ => Logic.I) (fun _ => Logic.I) Logic.I Hu Hv Ha) as (t2 & E2 & P2).
    assert (E := requests_tail t2 _ _ E2 P2). rewrite E. assert (X := acts_check dir (MkApp w m init)). cbn [a_world] in X.
    destruct c; try congruence; lia.
Qed.
Print Assumptions C98_requests.

(** ** Examples *)

Definition waiting_world : world := on_world1 [1641124800000000000; 1641124800000000001]%Z [].
Definition slow : server := MkServer (Some 4999999999)%Z (Some 0)%Z (NetBody (b "null") true).
Definition late : server := MkServer (Some 5000000000)%Z (Some 0)%Z (NetBody (b "null") true).

(** A server that is reached just before five seconds are over, and one that is not. *)
Example C98_example : get_config (Some demo_settings) = Ok (MkConfig 5 true 1 (b "/v")) /\ sensible 5 /\ prompt slow /\ prompt late /\
  (exists t', timed_facade_check (Some demo_settings) true (b "/c") (MkTimed waiting_world [slow] 0) = Some (t', Ok (Err ErrNoUpdate)) /\
    t_waited t' = 4999999999%Z) /\
  (exists t', timed_facade_check (Some demo_settings) true (b "/c") (MkTimed waiting_world [late] 0) = Some (t', Ok (Err io_error)) /\
    t_waited t' = seconds 5) /\
  exists t', timed_facade_check (Some demo_settings) true (b "/c") (MkTimed waiting_world [MkServer None None NetErr] 0) = Some (t', Ok (Err io_error)) /\
    t_waited t' = seconds 5.
Proof.
  split; [vm_compute; reflexivity|]. split; [unfold sensible; lia|].
  split; [split; [intros c H; injection H as <-; lia|reflexivity]|]. split; [split; [intros c H; injection H as <-; lia|reflexivity]|].
  split; [|split]; (eexists; split; [vm_compute; reflexivity|vm_compute; reflexivity]).
Qed.

(** A settings file with the timeout 0. *)
Example C98_zero_example : exists m cfg, get_config m = Ok cfg /\ cfg_timeout cfg = 0%Z /\
  timed_facade_check m true (b "/c") (MkTimed waiting_world [MkServer None None NetErr] 0) = None.
Proof.
  exists (Some [(k_timeout, YInt 0)]), (MkConfig 0 true 1 []). vm_compute. repeat split.
Qed.

Example C98_requests_example : exists cfg, settings toy_yaml waiting_world (b "/c") cfg /\ cfg_notify cfg = true.
Proof. destruct (on_world_settings [1641124800000000000; 1641124800000000001]%Z []) as (cfg & H & N & _). exists cfg. split; [exact H|exact N]. Qed.
