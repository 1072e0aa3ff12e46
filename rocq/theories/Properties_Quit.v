(** The end of the GUI (C116).  Histories, vaults and sizes are arbitrary. *)
From Verif Require Import Base Utf8 GoStrings Json Civil Crypto Path Fs FsProof Domain Spec_Domain Repos Session SessionProof
  World WorldProof Config Updater Cli CliProof CliEvents Toy ToyYaml Gui Spec_Gui GuiProof GuiRun GuiCursor GuiWorld.
From Verif Require Import Properties_Session Properties_Cli Properties_Show Properties_End Properties_Gui.

Local Open Scope st_scope.

Lemma step_ends C U tz O dir center i g g' : gui_step C U tz O dir center i g = (g', Ok false) -> i = Press KQuit /\ g' = g.
Proof.
  intros H. assert (E : i = Press KQuit \/ gui_step C U tz O dir center i g = (ok <- (handle C U tz O dir center i ;;? layout center) ;; if ok then ret true else os_exit 1)%st g)
    by (destruct i as [[]| | | |]; auto).
  destruct E as [->|E]; [unfold gui_step, ret in H; split; congruence|]. rewrite E in H. apply bind_inv in H. destruct H as (h & [|] & _ & H2); [unfold ret in H2; congruence|].
  unfold os_exit, lift in H2. discriminate H2.
Qed.

Lemma play_ends C U tz dir center es g g' : play C U tz dir center es g = (g', Ok false) ->
  exists before O after_, es = before ++ (O, Press KQuit) :: after_ /\ play C U tz dir center before g = (g', Ok true).
Proof.
  revert g. induction es as [|[O i] es IH]; intros g H; [unfold play, ret in H; congruence|]. cbn [play] in H. unfold bind in H.
  destruct (gui_step C U tz O dir center i g) as [g1 [[|]| |n]] eqn:E; try congruence.
  - destruct (IH g1 H) as (be & O' & af & -> & P). exists ((O, i) :: be), O', af. split; [reflexivity|]. cbn [play]. unfold bind. rewrite E. exact P.
  - apply step_ends in E. destruct E as [-> ->]. exists [], O, es. split; [reflexivity|]. unfold ret in H. cbn [play]. unfold ret. congruence.
Qed.

(** ** C116 *)

(** The GUI ends without an error only where CTRL+Q is pressed, and as it was just before: nothing is written then. *)
Theorem C116_ends_only_on_request : forall C U tz Y dir center path w h es world g,
  gui_process C U tz Y dir center path w h es world = (g, Ok false) ->
  exists before O after_, es = before ++ (O, Press KQuit) :: after_ /\ gui_process C U tz Y dir center path w h before world = (g, Ok true).
Proof.
  intros C U tz Y dir center path w h es world g H. unfold gui_process in *.
  destruct (load_config Y (w_disk world) dir) as [m| |n]; [|congruence|congruence].
  destruct (first_run U Y dir (MkApp world m init)) as [a [x| |n]]; [|congruence|congruence].
  destruct (start_gui center path w h a) as [g0 [y| |n]] eqn:Es; [|congruence|congruence].
  assert (y = true) as -> by exact (start_answer C U tz dir center path w h a g0 y Es). exact (play_ends C U tz dir center es g0 g H).
Qed.
Print Assumptions C116_ends_only_on_request.

(** Where it is pressed the GUI ends, in every view and on a terminal of every size, and what comes later has no effect. *)
Theorem C116_ends_on_request : forall C U tz Y dir center path w h es world g O later,
  gui_process C U tz Y dir center path w h es world = (g, Ok true) ->
  gui_process C U tz Y dir center path w h (es ++ (O, Press KQuit) :: later) world = (g, Ok false).
Proof.
  intros C U tz Y dir center path w h es world g O later H. unfold gui_process in *.
  destruct (load_config Y (w_disk world) dir) as [m| |n]; [|congruence|congruence].
  destruct (first_run U Y dir (MkApp world m init)) as [a [x| |n]]; [|congruence|congruence].
  destruct (start_gui center path w h a) as [g0 [y| |n]] eqn:Es; [|congruence|congruence].
  rewrite play_app. unfold bind. rewrite H. reflexivity.
Qed.
Print Assumptions C116_ends_on_request.

(** Beside an item of the demo vault; the whole run with CTRL+Q ends. *)
Example C116_example :
  snd (demo_gui (vault_world (b "/v") []) (enter_freddy ++ [Press KEnter; Press KTab])) = Ok true /\
  snd (demo_gui (vault_world (b "/v") []) (enter_freddy ++ [Press KEnter; Press KTab; Press KQuit; Press KTab])) = Ok false.
Proof. split; vm_compute; reflexivity. Qed.
