(** Centring: its result for labels; runs of the GUI depend on it only at the width of the terminal. *)
From Verif Require Import Base Utf8 GoStrings Json Civil Crypto Path Fs Domain Repos Session SessionProof Spec_Domain
  World Config Updater Cli Gui Spec_Gui GuiProof GuiRun GuiCursor Center.

Section Same.
Variable C : crypto.
Variable U : unicode.
Variable tz : Z -> Z.
Variable dir : bytes.
Variables center center' : bytes -> Z -> bytes.
Variable w : Z.
Hypothesis agree : forall t, center t (w - 1)%Z = center' t (w - 1)%Z.

Definition width (g : gui) : Z := ui_w (g_ui g).
Definition same {A} (m m' : gact A) : Prop := forall g, width g = w -> m g = m' g /\ width (fst (m g)) = w.

Lemma same_holds {A} (m : gact A) : holds width m -> same m m.
Proof. intros H g Hg. split; [reflexivity|]. rewrite (H g). exact Hg. Qed.
Lemma same_exit {A} n : same (os_exit n : gact A) (os_exit n).
Proof. intros g Hg. split; [reflexivity|exact Hg]. Qed.
Lemma same_bind {A B} (m m' : gact A) (k k' : A -> gact B) : same m m' -> (forall x, same (k x) (k' x)) -> same (bind m k) (bind m' k').
Proof.
  intros Hm Hk g Hg. destruct (Hm g Hg) as [E W]. unfold bind. rewrite <- E. destruct (m g) as [g1 [x| |n]]; cbn [fst] in *; [apply (Hk x g1 W)|auto|auto].
Qed.
Lemma same_check (m m' k k' : gact bool) : same m m' -> same k k' -> same (check m k) (check m' k').
Proof. intros Hm Hk. apply same_bind; [exact Hm|]. intros [|]; [exact Hk|apply same_holds, holds_ret]. Qed.
Lemma same_ui {B} (k k' : screen_ui -> gact B) : (forall u, ui_w u = w -> same (k u) (k' u)) -> same (bind (get g_ui) k) (bind (get g_ui) k').
Proof. intros H g Hg. exact (H (g_ui g) Hg g Hg). Qed.

Lemma same_update : same (menu_update center) (menu_update center').
Proof.
  unfold menu_update. apply same_bind; [apply same_holds; held|]. intros s. destruct (is_unlocked s); [|apply same_holds; unfold prompt_layout; held].
  apply same_ui. intros u Hu. cbv zeta. rewrite Hu, !agree. destruct (ui_views u VMenu); [|apply same_holds; held].
  apply same_check; [|apply same_check; apply same_holds; held].
  destruct (Nat.eqb (count_items None false s) 0); [apply same_holds; held|]. apply same_bind; [apply same_holds; held|]. intros cats.
  rewrite (map_ext (fun e => center (count_label (cat_name (fst e)) (snd e)) (w - 1)%Z) (fun e => center' (count_label (cat_name (fst e)) (snd e)) (w - 1)%Z)) by (intros e; apply agree).
  apply same_holds. held.
Qed.
Lemma same_lock : same (menu_lock center) (menu_lock center').
Proof.
  unfold menu_lock. apply same_bind; [apply same_holds; held|]. intros _. apply same_bind; [apply same_holds; held|]. intros _.
  apply same_check; [apply same_holds; held|]. apply same_check; [apply same_holds; held|]. apply same_check; [exact same_update|]. apply same_holds. now apply holds_help.
Qed.
Lemma same_layout : same (layout center) (layout center').
Proof.
  unfold layout. apply same_check; [apply same_holds; unfold version_layout; held|]. apply same_check; [apply same_holds; unfold help_layout, help_update; held|].
  unfold menu_layout. apply same_bind; [apply same_holds; held|]. intros u. apply same_bind; [apply same_holds; held|]. intros [| |]; try (apply same_holds; held; fail).
  apply same_check; [apply same_holds; held|]. apply same_check; [exact same_update|]. apply same_holds. now apply holds_help.
Qed.

Lemma same_key O n k : same (on_key C U tz O center n k) (on_key C U tz O center' n k).
Proof.
  assert (Hh : forall x, holds width (show_help x)) by (intros x; now apply holds_help).
  assert (Hd : forall m, holds width (details_update tz m)) by (intros m; unfold details_update; held).
  assert (Hp : holds width pick_item) by (unfold pick_item; held).
  assert (Ho : holds width (show_overview tz)) by (unfold show_overview; held; auto).
  assert (Hu : holds width (items_update tz)) by (unfold items_update; held; auto).
  assert (Hl : holds width (items_layout tz)) by (unfold items_layout, details_layout; held; auto).
  assert (He : holds width (open_entry U tz O)) by (unfold open_entry; held; auto).
  assert (Hb : holds width go_back) by (unfold go_back; held).
  assert (L : same (items_lock center) (items_lock center')) by (apply same_check; [now apply same_holds|exact same_lock]).
  destruct n, k; cbn [on_key]; try exact same_lock; try exact L; try (apply same_holds; assumption); try (apply same_holds; held; fail).
  - apply same_holds. unfold menu_up. held.
  - apply same_holds. unfold menu_down. held.
  - apply same_holds. unfold row_up. held. assumption.
  - apply same_holds. unfold row_down. held. assumption.
  - apply same_holds. unfold reveal. held; auto.
  - apply same_holds. unfold cover. held; auto.
  - unfold enter_password. apply same_bind; [apply same_holds; held|]. intros ?. cbv zeta. apply same_check; [apply same_holds; held|].
    apply same_bind; [apply same_holds; held|]. intros ?. apply same_bind; [apply same_holds; held|]. intros [e|].
    + apply same_holds. unfold error_layout. held.
    + apply same_check; [apply same_holds; held|exact same_update].
  - unfold close_error. apply same_check; [apply same_holds; held|exact same_update].
Qed.

Lemma same_step O i : (forall w' h', i <> Resize w' h') -> same (gui_step C U tz O dir center i) (gui_step C U tz O dir center' i).
Proof.
  intros Hi.
  assert (H : same (handle C U tz O dir center i) (handle C U tz O dir center' i)).
  { destruct i as [k|t|w0 h0| |d]; cbn [handle].
    - apply same_bind; [apply same_holds; held|]. intros c. apply same_key.
    - apply same_holds. held.
    - now elim (Hi w0 h0).
    - apply same_holds. unfold version_update. held.
    - apply same_holds. held. }
  assert (G : same (ok <- (handle C U tz O dir center i ;;? layout center) ;; if ok then ret true else os_exit 1)%st
                   (ok <- (handle C U tz O dir center' i ;;? layout center') ;; if ok then ret true else os_exit 1)%st).
  { apply same_bind; [apply same_check; [exact H|exact same_layout]|]. intros [|]; [apply same_holds; held|apply same_exit]. }
  destruct i as [[]| | | |]; try exact G. apply same_holds, holds_ret.
Qed.

Lemma same_play es : Forall (fun x : oracles * input => forall w' h', snd x <> Resize w' h') es ->
  same (play C U tz dir center es) (play C U tz dir center' es).
Proof.
  induction es as [|[O i] es IH]; intros H; cbn [play]; [apply same_holds; held|]. apply Forall_cons_iff in H. destruct H as [Hi H].
  apply same_bind; [now apply same_step|]. intros [|]; [now apply IH|apply same_holds; held].
Qed.

(** As long as the terminal keeps its width, only what centring does at that width matters. *)
Lemma same_process Y path h es world : Forall (fun x : oracles * input => forall w' h', snd x <> Resize w' h') es ->
  gui_process C U tz Y dir center path w h es world = gui_process C U tz Y dir center' path w h es world.
Proof.
  intros H. unfold gui_process. destruct (load_config Y (w_disk world) dir) as [m| |n]; [|reflexivity|reflexivity].
  destruct (first_run U Y dir (MkApp world m init)) as [a [x| |n]]; [|reflexivity|reflexivity].
  unfold start_gui. destruct (pick_vault path a) as [a' [v| |n]]; [|reflexivity|reflexivity].
  assert (S : same (bind (layout center) (fun ok => if ok then ret true else os_exit 1)) (bind (layout center') (fun ok => if ok then ret true else os_exit 1))).
  { apply same_bind; [exact same_layout|]. intros [|]; [apply same_holds; held|apply same_exit]. }
  destruct (S (blank_gui a' v w h) eq_refl) as [E W]. rewrite <- E.
  destruct (bind (layout center) (fun ok => if ok then ret true else os_exit 1) (blank_gui a' v w h)) as [g0 [y| |n]]; [|reflexivity|reflexivity].
  exact (proj1 (same_play es H g0 W)).
Qed.
End Same.
