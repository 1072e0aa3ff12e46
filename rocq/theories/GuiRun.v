(** Runs of the GUI from the start of the program. *)
From Verif Require Import Base Utf8 GoStrings Json Civil Crypto Path Fs Domain Spec_Domain DomainProof Repos Session SessionProof
  World WorldProof Config Updater Cli CliProof CliEvents Toy Gui Spec_Gui GuiProof.
From Verif Require Import Properties_Session.

(** What the program does to its settings leaves the vault session alone. *)
Definition apart {A} (m : act A) : Prop := forall a, a_vault (fst (m a)) = a_vault a.

Lemma apart_ret {A} (x : A) : apart (ret x).
Proof. intros a. reflexivity. Qed.
Lemma apart_lift {A} (x : res A) : apart (lift x).
Proof. intros a. reflexivity. Qed.
Lemma apart_conf : apart the_conf.
Proof. intros a. reflexivity. Qed.
Lemma apart_world {A} (m : io A) : apart (on_world m).
Proof. intros a. unfold on_world. destruct (m (a_world a)) as [w r]. reflexivity. Qed.
Lemma apart_bind {A B} (m : act A) (k : A -> act B) : apart m -> (forall x, apart (k x)) -> apart (bind m k).
Proof.
  intros Hm Hk a. unfold bind. specialize (Hm a). destruct (m a) as [a1 [x| |n]]; cbn [fst] in *; [|exact Hm|exact Hm].
  now rewrite (Hk x a1).
Qed.
Lemma apart_config_now : apart config_now.
Proof. apply apart_bind; [apply apart_conf|]. intros m. apply apart_lift. Qed.
Lemma apart_say t : apart (say t).
Proof. apply apart_world. Qed.
Lemma apart_check dir : apart (cli_check dir).
Proof.
  apply apart_bind; [apply apart_config_now|]. intros c. destruct (cfg_notify c); [|apply apart_ret].
  apply apart_bind; [apply apart_conf|]. intros m. apply apart_bind; [apply apart_world|]. intros [i|e]; [apply apart_say|apply apart_ret].
Qed.
Lemma apart_save Y dir c : apart (save_now Y dir c).
Proof. intros a. unfold save_now. destruct (save_config Y dir c (a_conf a) (a_world a)) as [w []]; reflexivity. Qed.
Lemma apart_interview U Y dir : apart (interview U Y dir).
Proof.
  unfold interview. assert (Hp : forall t, apart (on_world (print t))) by (intros t; apply apart_world).
  assert (Hs := apart_say). assert (Hsc : apart (on_world scan)) by apply apart_world.
  apply apart_bind; [apply apart_config_now|]. intros c.
  apply apart_bind; [apply Hs|]. intros _. apply apart_bind; [apply Hs|]. intros _.
  apply apart_bind; [apply Hp|]. intros _. apply apart_bind; [exact Hsc|]. intros confirm.
  apply apart_bind.
  { destruct (lv_from_name U confirm) as [v|e]; [|apply apart_ret]. destruct (lv_value v); [|apply apart_ret].
    apply apart_bind; [apply Hp|]. intros _. apply apart_bind; [exact Hsc|]. intros s. apply apart_ret. }
  intros vault. apply apart_bind; [apply apart_lift|]. intros t. apply apart_bind; [apply Hp|]. intros _.
  apply apart_bind; [exact Hsc|]. intros ns. cbv zeta. apply apart_bind; [apply Hp|]. intros _.
  apply apart_bind; [exact Hsc|]. intros ts. apply apart_bind; [apply Hp|]. intros _.
  apply apart_bind; [exact Hsc|]. intros ps. apply apart_bind; [apply apart_save|]. intros _. apply Hs.
Qed.
Lemma apart_first_run U Y dir : apart (first_run U Y dir).
Proof.
  apply apart_bind; [apply apart_conf|]. intros m. destruct (is_available m); [apply apart_ret|].
  apply apart_bind; [apply apart_say|]. intros _. apply apart_bind; [apply apart_say|]. intros _.
  rewrite configure_eq. apply apart_bind; [apply apart_bind; [apply apart_check|intros _; apply apart_interview]|]. intros _. apply apart_say.
Qed.

Section Runs.
Variable C : crypto.
Variable U : unicode.
Variable tz : Z -> Z.
Variable Y : yaml.
Variable dir : bytes.
Variable center : bytes -> Z -> bytes.

Lemma play_app es es' g : play C U tz dir center (es ++ es') g =
  bind (play C U tz dir center es) (fun more => if more then play C U tz dir center es' else ret false) g.
Proof.
  revert g. induction es as [|[Or i] es IH]; intros g; [reflexivity|]. cbn [Datatypes.app play]. unfold bind in *.
  destruct (gui_step C U tz Or dir center i g) as [g1 [[|]| |n]]; try reflexivity. apply IH.
Qed.

Lemma init_reachable : reachable C U tz init.
Proof. exists [], []. split; [constructor|reflexivity]. Qed.

Lemma running_inv g : running C U tz Y dir center g -> ginv C U tz center g.
Proof.
  intros (path & w & h & es & world & Hes & H). unfold gui_process in H.
  destruct (load_config Y (w_disk world) dir) as [m| |n]; [|congruence|congruence].
  assert (Hf := apart_first_run U Y dir (MkApp world m init)).
  destruct (first_run U Y dir (MkApp world m init)) as [a [x| |n]]; cbn [fst a_vault] in Hf; [|congruence|congruence].
  destruct (start_gui center path w h a) as [g0 [y| |n]] eqn:Es; [|congruence|congruence].
  assert (y = true) as -> by exact (start_answer C U tz dir center path w h a g0 y Es).
  destruct (start_inv C U tz dir center path w h a g0) as [G0 _]; [rewrite Hf; apply init_reachable|rewrite Hf; reflexivity|exact Es|].
  assert (P := play_inv C U tz dir center es g0 Hes G0). rewrite H in P. exact P.
Qed.

(** A running GUI goes on with one more event. *)
Lemma running_step O i g g' : running C U tz Y dir center g -> oracles_ok O -> gui_step C U tz O dir center i g = (g', Ok true) ->
  running C U tz Y dir center g'.
Proof.
  intros (path & w & h & es & world & Hes & H) HO Hs. exists path, w, h, (es ++ [(O, i)]), world.
  split; [apply Forall_app; split; [exact Hes|constructor; [exact HO|constructor]]|].
  unfold gui_process in *. destruct (load_config Y (w_disk world) dir) as [m| |n]; [|congruence|congruence].
  destruct (first_run U Y dir (MkApp world m init)) as [a [x| |n]]; [|congruence|congruence].
  destruct (start_gui center path w h a) as [g0 [y| |n]]; [|congruence|congruence].
  rewrite play_app. unfold bind. rewrite H. cbn [play]. unfold bind. rewrite Hs. reflexivity.
Qed.

(** One key in a running GUI, up to the sizes of the views. *)
Lemma step_handle O i g g1 : ginv C U tz center g -> oracles_ok O -> i <> Press KQuit -> handle C U tz O dir center i g = (g1, Ok true) ->
  (exists g', gui_step C U tz O dir center i g = (g', Ok true) /\ resized g1 g') \/
  (exists g', gui_step C U tz O dir center i g = (g', Exit 1) /\ ~ roomy g1).
Proof.
  intros G HO Hq Hh. assert (H := handle_run C U tz dir center O i g HO G). rewrite Hh in H.
  assert (E : gui_step C U tz O dir center i g = (ok <- (handle C U tz O dir center i ;;? layout center) ;; if ok then ret true else os_exit 1)%st g).
  { destruct i as [[]| | | |]; congruence || reflexivity. }
  rewrite E. clear E. unfold check, bind. rewrite Hh.
  destruct (mode_views C U tz dir center g1 H) as (m & Hm). assert (Hm' : view_of g1 VMenu <> None) by congruence.
  destruct (layout_ok C U tz dir center g1 (gi_version _ _ _ _ _ H) (gi_help _ _ _ _ _ H) Hm') as (g2 & ok & E2 & R & Hf). rewrite E2. destruct ok.
  - left. exists g2. auto.
  - right. exists g2. split; [reflexivity|]. exact (Hf eq_refl).
Qed.
End Runs.
