(** What the GUI does to the world around it. *)
From Verif Require Import Base Utf8 GoStrings Json Civil Crypto Path Fs Domain Repos Session World WorldProof Config Updater UpdateProof
  Cli CliProof CliEvents Gui Spec_Gui.

Local Open Scope st_scope.

Definition gworld (g : gui) : world := a_world (g_app g).
Definition gconf (g : gui) : cmap := a_conf (g_app g).

Definition there (g : gui) : Prop := view_of g VVersion <> None.
Definition kept (g g' : gui) : Prop := gworld g' = gworld g /\ gconf g' = gconf g /\ g_checking g' = g_checking g /\ there g'.
(** Once the version is on the screen, [m] does nothing to the world. *)
Definition still {A} (m : gact A) : Prop := forall g, there g -> kept g (fst (m g)).

Lemma kept_refl g : there g -> kept g g.
Proof. repeat split; assumption. Qed.
Lemma kept_trans g1 g2 g3 : kept g1 g2 -> kept g2 g3 -> kept g1 g3.
Proof. intros (A1 & A2 & A3 & A4) (B1 & B2 & B3 & B4). repeat split; congruence || assumption. Qed.

Lemma still_ret {A} (x : A) : still (ret x).
Proof. intros g H. now apply kept_refl. Qed.
Lemma still_lift {A} (x : res A) : still (lift x).
Proof. intros g H. now apply kept_refl. Qed.
Lemma still_get {A} (f : gui -> A) : still (get f).
Proof. intros g H. now apply kept_refl. Qed.
Lemma still_bind {A B} (m : gact A) (k : A -> gact B) : still m -> (forall x, still (k x)) -> still (bind m k).
Proof.
  intros Hm Hk g H. specialize (Hm g H). unfold bind. destruct (m g) as [g1 [x| |n]]; cbn [fst] in *; try exact Hm.
  apply (kept_trans _ _ _ Hm). apply Hk. exact (proj2 (proj2 (proj2 Hm))).
Qed.
Lemma still_check (m k : gact bool) : still m -> still k -> still (check m k).
Proof. intros Hm Hk. apply still_bind; [exact Hm|]. intros [|]; [exact Hk|apply still_ret]. Qed.

Lemma there_put n v g : there g -> there (set_ui (put_view n (Some v) (g_ui g)) g).
Proof. intros H. unfold there, view_of, put_view. cbn. destruct n; cbn; try exact H; discriminate. Qed.

Lemma still_on_view n f : still (on_view n f).
Proof.
  intros g H. unfold on_view. destruct (ui_views (g_ui g) n) as [v|]; [|now apply kept_refl].
  cbn [fst]. repeat split. now apply there_put.
Qed.
Lemma still_try_view n f : still (try_view n f).
Proof.
  intros g H. unfold try_view. destruct (ui_views (g_ui g) n) as [v|]; [|now apply kept_refl].
  destruct (f v); [|now apply kept_refl]. cbn [fst]. repeat split. now apply there_put.
Qed.
Lemma still_set_view n x0 y0 x1 y1 : still (set_view n x0 y0 x1 y1).
Proof.
  intros g H. unfold set_view. destruct (_ || _)%bool; [now apply kept_refl|].
  destruct (ui_views (g_ui g) n); cbn [fst]; (repeat split; now apply there_put).
Qed.
Lemma still_delete n : n <> VVersion -> still (delete_view n).
Proof.
  intros Hn g H. unfold delete_view. destruct (ui_views (g_ui g) n); [|now apply kept_refl].
  cbn [fst]. repeat split. unfold there, view_of, put_view in *. cbn. destruct n; cbn; (exact H || congruence).
Qed.
Lemma still_current n : still (set_current n).
Proof. intros g H. unfold set_current. destruct (ui_views (g_ui g) n); [|now apply kept_refl]. repeat split. exact H. Qed.
Lemma still_put f : (forall g, gworld (f g) = gworld g /\ gconf (f g) = gconf g /\ g_checking (f g) = g_checking g /\ g_ui (f g) = g_ui g) -> still (put f).
Proof.
  intros Hf g H. destruct (Hf g) as (A & B & D & E). unfold put. cbn [fst]. repeat split; try assumption.
  unfold there, view_of in *. now rewrite E.
Qed.
Lemma still_vault {A} (f : disk -> state -> res (state * A)) : still (on_app (on_vault f)).
Proof.
  intros g H. unfold on_app, on_vault. destruct (f (w_disk (a_world (g_app g))) (a_vault (g_app g))) as [[s x]| |n]; cbn [fst]; repeat split; exact H.
Qed.

Ltac still_go :=
  repeat lazymatch goal with
    | |- still (bind _ _) => apply still_bind; [|intros ?]
    | |- still (check _ _) => apply still_check
    | |- still (ret _) => apply still_ret
    | |- still (lift _) => apply still_lift
    | |- still (get _) => apply still_get
    | |- still (on_view _ _) => apply still_on_view
    | |- still (try_view _ _) => apply still_try_view
    | |- still (set_view _ _ _ _ _) => apply still_set_view
    | |- still (set_current _) => apply still_current
    | |- still (on_app (on_vault _)) => apply still_vault
    | |- still (delete_view _) => apply still_delete; discriminate
    | |- still (put _) => apply still_put; intros ?g; cbv beta; try (destruct (g_cats g)); repeat split; reflexivity
    | |- still (match ?x with _ => _ end) => destruct x
    | |- still (let x := _ in _) => cbv zeta
    end; auto with still.

Lemma still_help_update : still help_update.
Proof. unfold help_update. still_go. Qed.
#[local] Hint Resolve still_help_update : still.
Lemma still_show_help h : still (show_help h).
Proof. unfold show_help. still_go. Qed.
#[local] Hint Resolve still_show_help : still.

Section World.
Variable C : crypto.
Variable U : unicode.
Variable tz : Z -> Z.
Variable O : oracles.
Variable dir : bytes.
Variable center : bytes -> Z -> bytes.

Lemma still_details_update mask : still (details_update tz mask).
Proof. unfold details_update. still_go. Qed.
#[local] Hint Resolve still_details_update : still.
Lemma still_details_layout : still details_layout.
Proof. unfold details_layout. still_go. Qed.
#[local] Hint Resolve still_details_layout : still.
Lemma still_pick : still pick_item.
Proof. unfold pick_item. still_go. Qed.
#[local] Hint Resolve still_pick : still.
Lemma still_overview : still (show_overview tz).
Proof. unfold show_overview. still_go. Qed.
#[local] Hint Resolve still_overview : still.
Lemma still_reveal : still (reveal tz).
Proof. unfold reveal. still_go. Qed.
#[local] Hint Resolve still_reveal : still.
Lemma still_cover : still (cover tz).
Proof. unfold cover. still_go. Qed.
#[local] Hint Resolve still_cover : still.
Lemma still_items_update : still (items_update tz).
Proof. unfold items_update. still_go. Qed.
#[local] Hint Resolve still_items_update : still.
Lemma still_items_layout : still (items_layout tz).
Proof. unfold items_layout. still_go. Qed.
#[local] Hint Resolve still_items_layout : still.
Lemma still_row_down : still (row_down tz).
Proof. unfold row_down. still_go. Qed.
#[local] Hint Resolve still_row_down : still.
Lemma still_row_up : still (row_up tz).
Proof. unfold row_up. still_go. Qed.
#[local] Hint Resolve still_row_up : still.
Lemma still_go_back : still go_back.
Proof. unfold go_back. still_go. Qed.
#[local] Hint Resolve still_go_back : still.
Lemma still_prompt_layout : still prompt_layout.
Proof. unfold prompt_layout. still_go. Qed.
#[local] Hint Resolve still_prompt_layout : still.
Lemma still_error_layout : still error_layout.
Proof. unfold error_layout. still_go. Qed.
#[local] Hint Resolve still_error_layout : still.
Lemma still_menu_update : still (menu_update center).
Proof. unfold menu_update. still_go. Qed.
#[local] Hint Resolve still_menu_update : still.
Lemma still_close_error : still (close_error center).
Proof. unfold close_error. still_go. Qed.
#[local] Hint Resolve still_close_error : still.
Lemma still_menu_down : still menu_down.
Proof. unfold menu_down. still_go. Qed.
#[local] Hint Resolve still_menu_down : still.
Lemma still_menu_up : still menu_up.
Proof. unfold menu_up. still_go. Qed.
#[local] Hint Resolve still_menu_up : still.
Lemma still_menu_lock : still (menu_lock center).
Proof. unfold menu_lock. still_go. Qed.
#[local] Hint Resolve still_menu_lock : still.
Lemma still_items_lock : still (items_lock center).
Proof. unfold items_lock. still_go. Qed.
#[local] Hint Resolve still_items_lock : still.
Lemma still_enter : still (enter_password C U tz O center).
Proof. unfold enter_password. still_go. Qed.
#[local] Hint Resolve still_enter : still.
Lemma still_open : still (open_entry U tz O).
Proof. unfold open_entry. still_go. Qed.
#[local] Hint Resolve still_open : still.
Lemma still_menu_layout : still (menu_layout center).
Proof. unfold menu_layout. still_go. Qed.
#[local] Hint Resolve still_menu_layout : still.
Lemma still_help_layout : still help_layout.
Proof. unfold help_layout. still_go. Qed.
#[local] Hint Resolve still_help_layout : still.

Lemma still_version_layout : still version_layout.
Proof.
  intros g H. unfold version_layout, get at 1, bind at 1, bind, set_view.
  destruct (_ || _)%bool; [now apply kept_refl|]. unfold there, view_of in H.
  destruct (ui_views (g_ui g) VVersion); [|congruence]. repeat split. discriminate.
Qed.
Lemma still_layout : still (layout center).
Proof. unfold layout. still_go. apply still_version_layout. Qed.
#[local] Hint Resolve still_layout : still.

Lemma still_key cur k : still (on_key C U tz O center cur k).
Proof.
  destruct cur, k; cbn [on_key]; still_go.
Qed.

(** The world after one event. *)
Definition next_world (i : input) (g : gui) : world :=
  match i with
  | Checked => if g_checking g then fst (facade_check (gconf g) true dir (gworld g)) else gworld g
  | Disk d => set_disk d (gworld g)
  | _ => gworld g
  end.
Definition next_checking (i : input) (g : gui) : bool := match i with Checked => false | _ => g_checking g end.

Lemma checked_world g : there g -> g_checking g = true ->
  let p := version_update dir g in
  gworld (fst p) = fst (facade_check (gconf g) true dir (gworld g)) /\ gconf (fst p) = gconf g /\ there (fst p) /\
  forall x, snd p = Ok x -> g_checking (fst p) = false.
Proof.
  intros H Hc. cbv zeta. unfold version_update, on_app, bind, the_conf, on_world.
  change (a_conf (g_app g)) with (gconf g). change (a_world (g_app g)) with (gworld g).
  destruct (facade_check (gconf g) true dir (gworld g)) as [w1 [r| |n]]; cbn [fst snd].
  - unfold on_view. cbn [set_app g_ui]. unfold there, view_of in H. destruct (ui_views (g_ui g) VVersion) as [v|]; [|congruence].
    unfold put. cbn [fst snd]. repeat split. discriminate.
  - repeat split; [exact H|discriminate].
  - repeat split; [exact H|discriminate].
Qed.

Lemma handle_world i g : there g ->
  let p := handle C U tz O dir center i g in
  gworld (fst p) = next_world i g /\ gconf (fst p) = gconf g /\ there (fst p) /\
  forall x, snd p = Ok x -> g_checking (fst p) = next_checking i g.
Proof.
  intros H. cbv zeta. destruct i as [k|t|w h| |d].
  - assert (S : still (handle C U tz O dir center (Press k))) by (unfold handle; still_go; apply still_key).
    destruct (S g H) as (A & B & D & E). repeat split; auto.
  - assert (S : still (handle C U tz O dir center (Typed t))) by (unfold handle; still_go; destruct x; still_go).
    destruct (S g H) as (A & B & D & E). repeat split; auto.
  - repeat split. exact H.
  - assert (Q : handle C U tz O dir center Checked g = if g_checking g then bind (version_update dir) (fun _ => ret true) g else (g, Ok true)).
    { unfold handle, get, bind at 1. now destruct (g_checking g). }
    rewrite Q. unfold next_world, next_checking. destruct (g_checking g) eqn:Ec.
    + destruct (checked_world g H Ec) as (A & B & D & E). unfold bind, ret.
      destruct (version_update dir g) as [g1 [x| |n]]; cbn [fst snd] in *; repeat split; auto; try discriminate. intros _ _. now apply (E x).
    + repeat split; [exact H|]. intros _ _. exact Ec.
  - repeat split. exact H.
Qed.

Lemma step_world i g : there g ->
  let p := gui_step C U tz O dir center i g in
  gworld (fst p) = next_world i g /\ gconf (fst p) = gconf g /\ there (fst p) /\
  forall x, snd p = Ok x -> g_checking (fst p) = next_checking i g.
Proof.
  intros H. cbv zeta.
  assert (E : i = Press KQuit \/ gui_step C U tz O dir center i g = (ok <- (handle C U tz O dir center i ;;? layout center) ;; if ok then ret true else os_exit 1)%st g).
  { destruct i as [[]| | | |]; auto. }
  destruct E as [->|E]; [repeat split; exact H|]. rewrite E. clear E.
  destruct (handle_world i g H) as (A & B & D & F). unfold check, bind.
  destruct (handle C U tz O dir center i g) as [g1 [[|]| |n]]; cbn [fst snd] in *.
  - destruct (still_layout g1 D) as (A1 & B1 & D1 & E1). destruct (layout center g1) as [g2 [[|]| |n]]; cbn [fst snd] in *;
      unfold ret, os_exit, lift; cbn [fst snd]; repeat split; try congruence; try exact E1; try discriminate;
      intros x _; rewrite D1; now apply (F true).
  - unfold ret, os_exit, lift. cbn [fst snd]. repeat split; auto; discriminate.
  - repeat split; auto; discriminate.
  - repeat split; auto; discriminate.
Qed.

(** The start. *)
Lemma layout_world a vault w h : let p := layout center (blank_gui a vault w h) in
  gworld (fst p) = a_world a /\ gconf (fst p) = a_conf a /\ (snd p = Ok true -> there (fst p)).
Proof.
  assert (R : still (help_layout ;;? menu_layout center)) by still_go.
  set (m := help_layout ;;? menu_layout center) in *.
  assert (Q : layout center (blank_gui a vault w h) = if ((w - 1 <=? 0) || (2 <=? 0))%Z then (blank_gui a vault w h, Ok false)
    else m (fst (check version_layout (ret true) (blank_gui a vault w h)))).
  { unfold layout. fold m. unfold version_layout, check, bind, get, set_view. cbn [ui_w g_ui blank_gui]. now destruct (_ || _)%bool. }
  cbv zeta. rewrite Q. clear Q. destruct ((w - 1 <=? 0) || (2 <=? 0))%Z eqn:E0; [repeat split; discriminate|].
  assert (Q : exists v, fst (check version_layout (ret true) (blank_gui a vault w h)) = set_checking true (set_ui (put_view VVersion (Some v) (put_view VVersion (Some (MkView (w - 1 - 0 - 1) (2 - 0 - 1) [] 0 0 0 0)) (MkUi w h (fun _ => None) VMenu))) (blank_gui a vault w h))).
  { unfold version_layout, check, bind, get, set_view. cbn [ui_w g_ui blank_gui]. rewrite E0. eexists. reflexivity. }
  destruct Q as [v ->]. match goal with |- context [m ?g] => set (g1 := g) end.
  assert (H1 : there g1) by discriminate. destruct (R g1 H1) as (A & B & D & E). auto.
Qed.

End World.
