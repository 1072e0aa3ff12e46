(** Events that are handled together lead where events handled one by one lead. *)
From Verif Require Import Base Utf8 GoStrings Json Civil Crypto Path Fs Domain Repos Session
  World Config Updater Cli Toy Gui Spec_Gui GuiCursor Batch Spec_Batch.

Local Open Scope st_scope.

Lemma alike_refl g : same_gui g g.
Proof. now constructor. Qed.
Lemma alike_sym g1 g2 : same_gui g1 g2 -> same_gui g2 g1.
Proof. intros []. constructor; auto. Qed.
Lemma alike_trans g1 g2 g3 : same_gui g1 g2 -> same_gui g2 g3 -> same_gui g1 g3.
Proof. intros [] []. constructor; congruence. Qed.

(** ** Code that cannot tell such GUIs apart *)
Definition sim {A} (m1 m2 : gact A) : Prop := forall g1 g2, same_gui g1 g2 -> same_gui (fst (m1 g1)) (fst (m2 g2)) /\ snd (m1 g1) = snd (m2 g2).

Lemma sim_ret {A} (x : A) : sim (ret x) (ret x).
Proof. intros g1 g2 H. auto. Qed.
Lemma sim_lift {A} (x : res A) : sim (lift x) (lift x).
Proof. intros g1 g2 H. auto. Qed.
Lemma sim_get {A} (f : gui -> A) : (forall g1 g2, same_gui g1 g2 -> f g1 = f g2) -> sim (get f) (get f).
Proof. intros Hf g1 g2 H. cbn. now rewrite (Hf g1 g2 H). Qed.
Lemma sim_bind {A B} (m1 m2 : gact A) (k1 k2 : A -> gact B) : sim m1 m2 -> (forall x, sim (k1 x) (k2 x)) -> sim (bind m1 k1) (bind m2 k2).
Proof.
  intros Hm Hk g1 g2 H. unfold bind. destruct (Hm g1 g2 H) as [H1 H2]. destruct (m1 g1) as [h1 r1], (m2 g2) as [h2 r2]. cbn [fst snd] in *. subst r2.
  destruct r1 as [x| |n]; [now apply Hk|auto|auto].
Qed.
Lemma sim_check (m1 m2 k1 k2 : gact bool) : sim m1 m2 -> sim k1 k2 -> sim (check m1 k1) (check m2 k2).
Proof. intros Hm Hk. apply sim_bind; [exact Hm|]. intros [|]; [exact Hk|apply sim_ret]. Qed.
Lemma sim_get_ui {B} (k1 k2 : screen_ui -> gact B) :
  (forall u1 u2, ui_w u1 = ui_w u2 -> ui_h u1 = ui_h u2 -> (forall n, ui_views u1 n = ui_views u2 n) -> sim (k1 u1) (k2 u2)) ->
  sim (bind (get g_ui) k1) (bind (get g_ui) k2).
Proof. intros Hk g1 g2 H. unfold bind, get. apply Hk; [apply H|apply H|exact (al_view _ _ H)|exact H]. Qed.
Lemma sim_put f : (forall g1 g2, same_gui g1 g2 -> same_gui (f g1) (f g2)) -> sim (put f) (put f).
Proof. intros Hf g1 g2 H. split; [now apply Hf|reflexivity]. Qed.
Lemma alike_app a g1 g2 : same_gui g1 g2 -> same_gui (set_app a g1) (set_app a g2).
Proof. intros []. constructor; auto. Qed.
Lemma sim_on_app {A} (m : act A) : sim (on_app m) (on_app m).
Proof. intros g1 g2 H. unfold on_app. rewrite (al_app _ _ H). destruct (m (g_app g2)) as [a r]. split; [now apply alike_app|reflexivity]. Qed.
Lemma alike_put_view n v g1 g2 : same_gui g1 g2 -> same_gui (set_ui (put_view n v (g_ui g1)) g1) (set_ui (put_view n v (g_ui g2)) g2).
Proof. intros H. assert (V := al_view _ _ H). destruct H. constructor; auto. intros m. unfold view_of. cbn. destruct (vname_eqb m n); [reflexivity|exact (V m)]. Qed.
Lemma sim_on_view n f : sim (on_view n f) (on_view n f).
Proof.
  intros g1 g2 H. unfold on_view. fold (view_of g1 n). fold (view_of g2 n). rewrite (al_view _ _ H n). destruct (view_of g2 n); [|auto].
  split; [now apply alike_put_view|reflexivity].
Qed.
Lemma sim_try_view n f : sim (try_view n f) (try_view n f).
Proof.
  intros g1 g2 H. unfold try_view. fold (view_of g1 n). fold (view_of g2 n). rewrite (al_view _ _ H n). destruct (view_of g2 n); [|auto].
  destruct (f v); [|auto]. split; [now apply alike_put_view|reflexivity].
Qed.
Lemma sim_set_view n x0 y0 x1 y1 : sim (set_view n x0 y0 x1 y1) (set_view n x0 y0 x1 y1).
Proof.
  intros g1 g2 H. unfold set_view. destruct (_ || _)%bool; [auto|]. fold (view_of g1 n). fold (view_of g2 n). rewrite (al_view _ _ H n).
  destruct (view_of g2 n); (split; [now apply alike_put_view|reflexivity]).
Qed.
Lemma sim_delete n : sim (delete_view n) (delete_view n).
Proof.
  intros g1 g2 H. unfold delete_view. fold (view_of g1 n). fold (view_of g2 n). rewrite (al_view _ _ H n). destruct (view_of g2 n); [|auto].
  split; [now apply alike_put_view|reflexivity].
Qed.
Lemma sim_current n : sim (set_current n) (set_current n).
Proof.
  intros g1 g2 H. unfold set_current. fold (view_of g1 n). fold (view_of g2 n). rewrite (al_view _ _ H n). destruct (view_of g2 n); [|auto].
  split; [|reflexivity]. destruct H. constructor; auto.
Qed.

Ltac sims := repeat lazymatch goal with
  | |- sim (match ?x with _ => _ end) _ => destruct x
  | |- sim (ret _) _ => apply sim_ret
  | |- sim (lift _) _ => apply sim_lift
  | |- sim (get _) _ => apply sim_get; intros ? ? []; first [assumption | congruence | match goal with H : forall n, view_of _ n = view_of _ n |- _ => exact (H _) end | auto]
  | |- sim (on_app _) _ => apply sim_on_app
  | |- sim (on_view _ _) _ => apply sim_on_view
  | |- sim (try_view _ _) _ => apply sim_try_view
  | |- sim (set_view _ _ _ _ _) _ => apply sim_set_view
  | |- sim (delete_view _) _ => apply sim_delete
  | |- sim (set_current _) _ => apply sim_current
  | |- sim (check _ _) _ => apply sim_check
  | |- sim (bind (get g_ui) _) _ => apply sim_get_ui; intros ?u ?v ?Hw ?Hh ?Hv; rewrite ?Hw, ?Hh, ?Hv
  | |- sim (bind _ _) _ => apply sim_bind; [|intros ?]
  | |- sim (put _) _ => apply sim_put; intros ? ? []; constructor; auto
  | |- sim (let _ := _ in _) _ => cbv zeta
  end.

Section Same.
Variable C : crypto.
Variable U : unicode.
Variable tz : Z -> Z.
Variable dir : bytes.
Variable center : bytes -> Z -> bytes.

Lemma sim_help h : sim (show_help h) (show_help h).
Proof. unfold show_help, help_update. sims. Qed.
Lemma sim_prompt : sim prompt_layout prompt_layout.
Proof. unfold prompt_layout. sims. Qed.
Lemma alike_cats x g1 g2 : same_gui g1 g2 -> same_gui (set_cats (g_cats g1 ++ x) g1) (set_cats (g_cats g2 ++ x) g2).
Proof. intros []. constructor; auto. cbn. congruence. Qed.
Lemma alike_first g1 g2 : same_gui g1 g2 -> same_gui (match g_cats g1 with [] => g1 | _ => set_menu_idx 0%Z g1 end) (match g_cats g2 with [] => g2 | _ => set_menu_idx 0%Z g2 end).
Proof. intros H. rewrite (al_cats _ _ H). destruct (g_cats g2); [exact H|]. destruct H. constructor; auto. Qed.
Lemma sim_menu : sim (menu_update center) (menu_update center).
Proof.
  unfold menu_update. apply sim_bind; [sims|]. intros s. destruct (is_unlocked s); [|apply sim_prompt].
  apply sim_get_ui. intros u v Hw Hh Hv. rewrite Hw, Hv. cbv zeta. destruct (ui_views v VMenu); [|sims].
  apply sim_check; [|apply sim_check; [|apply sim_bind; [apply sim_put, alike_first|intros _; sims]]].
  - destruct (Nat.eqb _ _); [sims|]. apply sim_bind; [sims|]. intros cats. apply sim_bind; [apply sim_put; intros; now apply alike_cats|]. intros _. sims.
  - destruct (Nat.eqb _ _); [sims|]. apply sim_bind; [apply sim_put; intros; now apply alike_cats|]. intros _. sims.
Qed.
Lemma sim_details m : sim (details_update tz m) (details_update tz m).
Proof. unfold details_update. sims. Qed.
Lemma sim_pick : sim pick_item pick_item.
Proof. unfold pick_item. sims. Qed.
Lemma sim_overview : sim (show_overview tz) (show_overview tz).
Proof. unfold show_overview. apply sim_bind; [apply sim_pick|]. intros _. apply sim_details. Qed.
Lemma sim_items : sim (items_update tz) (items_update tz).
Proof. unfold items_update. sims; apply sim_overview. Qed.
Lemma sim_details_layout : sim details_layout details_layout.
Proof. unfold details_layout. sims. Qed.
Lemma sim_items_layout : sim (items_layout tz) (items_layout tz).
Proof. unfold items_layout. sims; try apply sim_items; try apply sim_details_layout; apply sim_help. Qed.
Lemma sim_error_layout : sim error_layout error_layout.
Proof. unfold error_layout. sims. Qed.
Lemma sim_menu_lock : sim (menu_lock center) (menu_lock center).
Proof. unfold menu_lock. sims; try apply sim_menu; apply sim_help. Qed.
Lemma sim_go_back : sim go_back go_back.
Proof. unfold go_back. sims. Qed.
Lemma sim_open_entry Or : sim (open_entry U tz Or) (open_entry U tz Or).
Proof. unfold open_entry. sims; try apply sim_items_layout; try apply sim_items. Qed.
Lemma sim_password Or : sim (enter_password C U tz Or center) (enter_password C U tz Or center).
Proof. unfold enter_password. sims; try apply sim_error_layout; try apply sim_menu. Qed.

Lemma sim_key Or cur k : sim (on_key C U tz Or center cur k) (on_key C U tz Or center cur k).
Proof.
  destruct cur, k; cbn [on_key]; try (sims; fail);
    first [apply sim_menu_lock|apply sim_open_entry|apply sim_go_back|apply sim_password|idtac].
  all: unfold menu_down, menu_up, items_lock, row_down, row_up, reveal, cover, close_error; sims;
    first [apply sim_overview|apply sim_menu|apply sim_go_back|apply sim_menu_lock|apply sim_pick|apply sim_details|apply sim_help].
Qed.
Lemma sim_version : sim (version_update dir) (version_update dir).
Proof. unfold version_update. sims. Qed.
Lemma sim_handle Or i : sim (handle C U tz Or dir center i) (handle C U tz Or dir center i).
Proof.
  destruct i; cbn [handle].
  - apply sim_bind; [sims|]. intros cur. apply sim_key.
  - sims.
  - sims.
  - sims. apply sim_version.
  - apply sim_bind; [|intros _; sims]. apply sim_put. intros g1 g2 H. cbv zeta. rewrite (al_app _ _ H). now apply alike_app.
Qed.
Lemma sim_layout : sim (layout center) (layout center).
Proof. unfold layout, version_layout, help_layout, menu_layout, help_update. sims; first [apply sim_menu|apply sim_help]. Qed.

(** ** The three views that are always there *)
Definition size_of (g : gui) (n : vname) : option (Z * Z) := option_map (fun v => (v_w v, v_h v)) (view_of g n).
Definition dims (g : gui) := (ui_w (g_ui g), ui_h (g_ui g), size_of g VVersion, size_of g VHelp, size_of g VMenu).

Definition keeps_size (f : view -> view) : Prop := forall v, v_w (f v) = v_w v /\ v_h (f v) = v_h v.
Lemma dims_put n v v' g : view_of g n = Some v -> v_w v' = v_w v -> v_h v' = v_h v -> dims (set_ui (put_view n (Some v') (g_ui g)) g) = dims g.
Proof.
  intros E H1 H2. unfold dims, size_of, view_of in *. cbn. destruct n; cbn; rewrite ?E; cbn; rewrite ?H1, ?H2; reflexivity.
Qed.
Lemma dims_on_view n f : keeps_size f -> holds dims (on_view n f).
Proof. intros Hf g. unfold on_view. fold (view_of g n). destruct (view_of g n) as [v|] eqn:E; [|reflexivity]. exact (dims_put n v (f v) g E (proj1 (Hf v)) (proj2 (Hf v))). Qed.
Lemma dims_try_view n f : (forall v v', f v = Some v' -> v_w v' = v_w v /\ v_h v' = v_h v) -> holds dims (try_view n f).
Proof.
  intros Hf g. unfold try_view. fold (view_of g n). destruct (view_of g n) as [v|] eqn:E; [|reflexivity]. destruct (f v) as [v'|] eqn:Ef; [|reflexivity].
  destruct (Hf _ _ Ef). now apply (dims_put n v v' g).
Qed.
Lemma size_write t : keeps_size (write t).
Proof. now intros v. Qed.
Lemma size_written t : keeps_size (fun v => write t (clear v)).
Proof. now intros v. Qed.
Lemma size_clear : keeps_size clear.
Proof. now intros v. Qed.
Lemma size_moved f : f = line_down \/ f = line_up \/ f = reset_cursor \/ f = scroll_down \/ f = scroll_up \/ f = scroll_right \/ f = scroll_left \/ f = (fun v => reset_origin (clear v)) ->
  forall v v', f v = Some v' -> v_w v' = v_w v /\ v_h v' = v_h v.
Proof.
  intros H v v' E. decompose [or] H; subst f;
    unfold line_down, line_up, reset_cursor, scroll_down, scroll_up, scroll_right, scroll_left, reset_origin, set_cursor, set_origin in E;
    repeat match type of E with context [if ?x then _ else _] => destruct x; cbv iota in E end; try discriminate E; injection E as <-; split; reflexivity.
Qed.

Ltac dimmed := repeat lazymatch goal with
  | |- holds _ (match ?x with _ => _ end) => destruct x
  | |- _ (match ?x with _ => _ end) = _ => destruct x; try reflexivity
  | |- holds _ (ret _) => apply holds_ret
  | |- holds _ (lift _) => apply holds_lift
  | |- holds _ (get _) => apply holds_get
  | |- holds _ (on_app _) => apply holds_on_app; reflexivity
  | |- holds _ (on_view _ (write _)) => apply dims_on_view, size_write
  | |- holds _ (on_view _ clear) => apply dims_on_view, size_clear
  | |- holds _ (on_view _ _) => apply dims_on_view, size_written
  | |- holds _ (try_view _ _) => apply dims_try_view, size_moved; tauto
  | |- holds _ (set_view _ _ _ _ _) => apply holds_set_view; reflexivity
  | |- holds _ (delete_view _) => apply holds_delete; reflexivity
  | |- holds _ (set_current _) => apply holds_current; reflexivity
  | |- holds _ (check _ _) => apply holds_check
  | |- holds _ (bind _ _) => apply holds_bind; [|intros ?]
  | |- holds _ (put _) => apply holds_put; intros ?; try reflexivity
  | |- holds _ (let _ := _ in _) => cbv zeta
  end.

Lemma dims_handle Or i : (forall w h, i <> Resize w h) -> holds dims (handle C U tz Or dir center i).
Proof.
  intros Hi. destruct i; cbn [handle].
  - apply holds_bind; [apply holds_get|]. intros cur. destruct cur, k; cbn [on_key];
      unfold items_lock; unfold menu_lock, menu_down, menu_up, open_entry, go_back, row_down, row_up, reveal, cover, enter_password, close_error, items_layout, items_update,
        show_overview, pick_item, details_update, details_layout, error_layout, menu_update, prompt_layout, show_help, help_update; dimmed.
  - dimmed.
  - now elim (Hi w h).
  - unfold version_update. dimmed.
  - dimmed.
Qed.

(** They have the sizes the terminal asks for. *)
Definition sized (g : gui) (n : vname) (x0 y0 x1 y1 : Z) : Prop :=
  ((x1 <=? x0)%Z || (y1 <=? y0)%Z)%bool = false /\ size_of g n = Some (x1 - x0 - 1, y1 - y0 - 1)%Z.
Definition laid (g : gui) : Prop :=
  sized g VVersion 0 0 (ui_w (g_ui g) - 1) 2 /\ sized g VHelp 0 (ui_h (g_ui g) - 3) (ui_w (g_ui g) - 1) (ui_h (g_ui g) - 1) /\
  sized g VMenu 0 3 (ui_w (g_ui g) - 1) (ui_h (g_ui g) - 4).

Lemma laid_dims g g' : dims g' = dims g -> laid g -> laid g'.
Proof. unfold dims, laid, sized. intros E. injection E as -> -> -> -> ->. auto. Qed.
Lemma laid_alike g g' : same_gui g g' -> laid g -> laid g'.
Proof. intros H. apply laid_dims. unfold dims, size_of. rewrite !(al_view _ _ H), (al_w _ _ H), (al_h _ _ H). reflexivity. Qed.

Lemma set_view_sized n x0 y0 x1 y1 g : sized g n x0 y0 x1 y1 -> exists g', set_view n x0 y0 x1 y1 g = (g', Ok Old) /\ same_gui g g'.
Proof.
  intros [H1 H2]. unfold set_view. rewrite H1. unfold size_of in H2. fold (view_of g n). destruct (view_of g n) as [v|] eqn:E; [|discriminate].
  eexists. split; [reflexivity|]. constructor; try reflexivity. intros m. unfold view_of. cbn. destruct (vname_eqb m n) eqn:Em; [|reflexivity].
  assert (m = n) by (destruct m, n; try discriminate Em; reflexivity). subst m. fold (view_of g n). rewrite E. cbn in H2. injection H2 as <- <-. now destruct v.
Qed.

(** Laying them out again changes nothing. *)
Lemma layout_again g : laid g -> exists g', layout center g = (g', Ok true) /\ same_gui g g'.
Proof.
  intros L. unfold layout, check, bind, version_layout, help_layout, menu_layout, bind, get, ret.
  destruct L as (L1 & L2 & L3).
  destruct (set_view_sized _ _ _ _ _ g L1) as (g1 & E1 & A1). rewrite E1. cbv iota beta.
  rewrite <- (al_w _ _ A1), <- (al_h _ _ A1).
  assert (S2 : sized g1 VHelp 0 (ui_h (g_ui g) - 3) (ui_w (g_ui g) - 1) (ui_h (g_ui g) - 1)) by (destruct L2 as [X Y]; split; [exact X|]; unfold size_of in *; now rewrite <- (al_view _ _ A1)).
  destruct (set_view_sized _ _ _ _ _ g1 S2) as (g2 & E2 & A2). rewrite E2. cbv iota beta.
  rewrite <- (al_w _ _ A2), <- (al_h _ _ A2), <- (al_w _ _ A1), <- (al_h _ _ A1).
  assert (S3 : sized g2 VMenu 0 3 (ui_w (g_ui g) - 1) (ui_h (g_ui g) - 4)) by (destruct L3 as [X Y]; split; [exact X|]; unfold size_of in *; now rewrite <- (al_view _ _ A2), <- (al_view _ _ A1)).
  destruct (set_view_sized _ _ _ _ _ g2 S3) as (g3 & E3 & A3). rewrite E3. cbv iota beta.
  exists g3. split; [reflexivity|]. exact (alike_trans _ _ _ A1 (alike_trans _ _ _ A2 A3)).
Qed.

(** After laying out they are there. *)
Lemma set_view_after n x0 y0 x1 y1 g g' m : set_view n x0 y0 x1 y1 g = (g', Ok m) -> m <> Bad ->
  sized g' n x0 y0 x1 y1 /\ ui_w (g_ui g') = ui_w (g_ui g) /\ ui_h (g_ui g') = ui_h (g_ui g) /\ forall k, k <> n -> view_of g' k = view_of g k.
Proof.
  unfold set_view. destruct (_ || _)%bool eqn:Eb; [intros E Hm; congruence|].
  assert (A : forall v, sized (set_ui (put_view n (Some (MkView (x1 - x0 - 1) (y1 - y0 - 1) (v_text v) (v_cx v) (v_cy v) (v_ox v) (v_oy v))) (g_ui g)) g) n x0 y0 x1 y1) by
    (intros v; split; [exact Eb|]; unfold size_of, view_of; cbn; now destruct n).
  intros E _. destruct (ui_views (g_ui g) n) as [v|]; injection E as <- _.
  - split; [apply A|]. do 2 (split; [reflexivity|]). intros k Hk. unfold view_of. cbn. destruct (vname_eqb k n) eqn:Ek; [|reflexivity]. destruct k, n; try discriminate Ek; congruence.
  - split; [exact (A (MkView 0 0 [] 0 0 0 0))|]. do 2 (split; [reflexivity|]). intros k Hk. unfold view_of. cbn. destruct (vname_eqb k n) eqn:Ek; [|reflexivity]. destruct k, n; try discriminate Ek; congruence.
Qed.

Lemma part_after n x0 y0 x1 y1 k g g' : (n = VVersion \/ n = VHelp \/ n = VMenu) -> holds dims k ->
  (m <- set_view n x0 y0 x1 y1 ;; match m with Bad => ret false | Old => ret true | New => k end) g = (g', Ok true) ->
  sized g' n x0 y0 x1 y1 /\ ui_w (g_ui g') = ui_w (g_ui g) /\ ui_h (g_ui g') = ui_h (g_ui g) /\
  forall j, j = VVersion \/ j = VHelp \/ j = VMenu -> j <> n -> size_of g' j = size_of g j.
Proof.
  intros Hn Hk E. apply bind_inv in E. destruct E as (g1 & m & E1 & E2).
  destruct (set_view_after _ _ _ _ _ _ _ _ E1) as (S1 & S2 & S3 & S4); [intros ->; discriminate E2|].
  assert (D : dims g' = dims g1).
  { destruct m; [discriminate E2|unfold ret in E2; congruence|]. exact (held_in dims k g1 g' _ Hk E2). }
  unfold dims in D. injection D as D1 D2 D3 D4 D5.
  split; [|split; [congruence|split; [congruence|]]].
  - destruct S1 as [S0 S1]. split; [exact S0|]. destruct Hn as [-> |[-> | ->]]; congruence.
  - intros j Hj Hjn. specialize (S4 j Hjn). unfold size_of at 2. rewrite <- S4. fold (size_of g1 j). destruct Hj as [-> |[-> | ->]]; assumption.
Qed.

Lemma laid_after g g' : layout center g = (g', Ok true) -> laid g'.
Proof.
  intros E. unfold layout in E. apply check_inv in E. destruct E as (g1 & E1 & E). apply check_inv in E. destruct E as (g2 & E2 & E3).
  unfold version_layout, bind at 1, get at 1 in E1. apply part_after in E1; [|tauto|dimmed]. destruct E1 as (S1 & W1 & H1 & O1).
  unfold help_layout, bind at 1, get at 1 in E2. apply part_after in E2; [|tauto|unfold help_update; dimmed]. destruct E2 as (S2 & W2 & H2 & O2).
  unfold menu_layout, bind at 1, get at 1 in E3. apply part_after in E3; [|tauto|unfold menu_update, prompt_layout, show_help, help_update; dimmed]. destruct E3 as (S3 & W3 & H3 & O3).
  assert (Ew : ui_w (g_ui g') = ui_w (g_ui g)) by congruence. assert (Eh : ui_h (g_ui g') = ui_h (g_ui g)) by congruence.
  unfold laid. rewrite Ew, Eh. split; [|split].
  - destruct S1 as [X Y]. split; [exact X|]. rewrite O3, O2 by (tauto || discriminate). exact Y.
  - rewrite <- W1, <- H1. destruct S2 as [X Y]. split; [exact X|]. rewrite O3 by (tauto || discriminate). exact Y.
  - rewrite <- W1, <- H1, <- W2, <- H2. exact S3.
Qed.

(** ** One event *)
Definition step_like (s : term * res bool) (q : gui * res bool) : Prop :=
  same_gui (t_gui (fst s)) (fst q) /\ snd s = snd q /\ (snd q = Ok true -> laid (fst q)).

Lemma gui_step_handle Or i g : i <> Press KQuit ->
  gui_step C U tz Or dir center i g = (ok <- (handle C U tz Or dir center i ;;? layout center) ;; if ok then ret true else os_exit 1) g.
Proof. intros H. destruct i as [[]| | | |]; try reflexivity. congruence. Qed.

Lemma handled_like Or i s g : same_gui (t_gui s) g -> laid g -> i <> Press KQuit -> (forall w h, i <> Resize w h) ->
  step_like (keep s (handle C U tz Or dir center i (t_gui s))) (gui_step C U tz Or dir center i g).
Proof.
  intros A L Hq Hr. rewrite gui_step_handle by exact Hq. destruct (sim_handle Or i _ _ A) as [A1 E1].
  assert (D := dims_handle Or i Hr g). unfold check, bind, step_like, keep.
  destruct (handle C U tz Or dir center i (t_gui s)) as [g1 r1], (handle C U tz Or dir center i g) as [g2 r2]. cbn [fst snd t_gui] in *. subst r2.
  assert (L2 := laid_dims _ _ D L).
  destruct r1 as [[|]| |n]; cbn [fst snd ret os_exit lift]; try (split; [exact A1|split; [reflexivity|discriminate]]).
  destruct (layout_again g2 L2) as (g3 & -> & A3). cbn [fst snd ret]. split; [exact (alike_trans _ _ _ A1 A3)|]. split; [reflexivity|]. intros _. exact (laid_alike _ _ A3 L2).
Qed.

(** ENTER in the prompt: as if the text on the screen had been typed. *)
Lemma enter_like Or s g : same_gui (t_gui s) g -> laid g -> current (t_gui s) = VPrompt ->
  step_like (event C U tz dir center Or (Press KEnter) s) (play C U tz dir center [(Or, Typed (t_seen s)); (Or, Press KEnter)] g).
Proof.
  intros A L Hc. cbn [event]. change (ui_cur (g_ui (t_gui s))) with (current (t_gui s)). rewrite Hc. cbn [vname_eqb play].
  assert (H := handled_like Or (Typed (t_seen s)) s g A L ltac:(discriminate) ltac:(discriminate)).
  assert (E : handle C U tz Or dir center (Typed (t_seen s)) (t_gui s) = on_view VPrompt (fun v => write (t_seen s) (clear v)) (t_gui s)).
  { cbn [handle]. unfold bind, get. change (ui_cur (g_ui (t_gui s))) with (current (t_gui s)). rewrite Hc. reflexivity. }
  rewrite E in H. unfold check, bind at 1. unfold bind at 1. unfold step_like, keep in H.
  destruct (on_view VPrompt (fun v => write (t_seen s) (clear v)) (t_gui s)) as [g1 r1]. cbn [fst snd t_gui] in H.
  destruct (gui_step C U tz Or dir center (Typed (t_seen s)) g) as [g2 r2]. cbn [fst snd] in H. destruct H as (A1 & <- & L1).
  destruct r1 as [[|]| |n]; try (split; [exact A1|split; [reflexivity|discriminate]]). specialize (L1 eq_refl). cbv iota.
  assert (H := handled_like Or (Press KEnter) (MkTerm g1 (t_seen s) (t_w s) (t_h s) (t_screen s)) g2 A1 L1 ltac:(discriminate) ltac:(discriminate)).
  cbn [t_gui] in H. unfold keep in *. unfold step_like in *. cbn [fst snd t_gui t_seen t_w t_h t_screen] in *. unfold bind.
  destruct (gui_step C U tz Or dir center (Press KEnter) g2) as [g3 r3]. cbn [fst snd] in *. destruct H as (H1 & H2 & H3).
  destruct (handle C U tz Or dir center (Press KEnter) g1) as [h1 q1]. cbn [fst snd] in *. subst r3.
  destruct q1 as [[|]| |n]; cbn [fst snd t_gui ret] in *; auto.
Qed.

Lemma flush_like Or s g : same_gui (t_gui s) g -> step_like (flush center s) (gui_step C U tz Or dir center (Resize (t_w s) (t_h s)) g).
Proof.
  intros A. unfold flush, gui_step. unfold check, bind at 1. unfold bind at 1. cbn [handle]. unfold bind at 1, put, ret at 1.
  fold (resize (t_w s) (t_h s) g).
  assert (A0 : same_gui (resize (t_w s) (t_h s) (t_gui s)) (resize (t_w s) (t_h s) g)) by (destruct A; constructor; auto).
  destruct (sim_layout _ _ A0) as [A1 E1]. assert (L := laid_after (resize (t_w s) (t_h s) g)).
  destruct (layout center (resize (t_w s) (t_h s) (t_gui s))) as [g1 r1], (layout center (resize (t_w s) (t_h s) g)) as [g2 r2]. cbn [fst snd] in *. subst r2.
  unfold step_like. destruct r1 as [[|]| |n]; cbn [fst snd t_gui ret os_exit lift]; (split; [exact A1|split; [reflexivity|]]); try discriminate. intros _. now apply (L g2).
Qed.

Lemma play_app es1 es2 g : play C U tz dir center (es1 ++ es2) g =
  match play C U tz dir center es1 g with
  | (g', Ok true) => play C U tz dir center es2 g'
  | x => x
  end.
Proof.
  revert g. induction es1 as [|[Or i] es1 IH]; intros g; [reflexivity|]. cbn [Datatypes.app play]. unfold bind. destruct (gui_step C U tz Or dir center i g) as [g1 [[|]| |n]]; try reflexivity. apply IH.
Qed.

Definition at_enter (i : input) (s : term) : bool :=
  match i with Press KEnter => vname_eqb (ui_cur (g_ui (t_gui s))) VPrompt | _ => false end.

Definition checks (es : list (oracles * input)) : bool := existsb (fun e => match snd e with Checked => true | _ => false end) es.

Lemma event_like Or i s g : same_gui (t_gui s) g -> laid g -> exists es, Forall (fun e => fst e = Or) es /\ checks es = checks [(Or, i)] /\
  step_like (event C U tz dir center Or i s) (play C U tz dir center es g).
Proof.
  intros A L.
  assert (One : i <> Press KQuit -> (forall w h, i <> Resize w h) -> event C U tz dir center Or i s = keep s (handle C U tz Or dir center i (t_gui s)) ->
     exists es, Forall (fun e => fst e = Or) es /\ checks es = checks [(Or, i)] /\ step_like (event C U tz dir center Or i s) (play C U tz dir center es g)).
  { intros H1 H2 ->. exists [(Or, i)]. split; [repeat constructor|]. split; [reflexivity|]. assert (H := handled_like Or i s g A L H1 H2).
    cbn [play]. unfold bind. destruct (gui_step C U tz Or dir center i g) as [g1 [[|]| |n]]; exact H. }
  destruct (at_enter i s) eqn:Ea.
  - destruct i as [[]| | | |]; try discriminate Ea. cbn [at_enter] in Ea. exists [(Or, Typed (t_seen s)); (Or, Press KEnter)]. split; [repeat constructor|]. split; [reflexivity|].
    apply enter_like; auto. unfold current. destruct (ui_cur (g_ui (t_gui s))); try discriminate Ea. reflexivity.
  - destruct i as [k|t|w h| |d].
    + destruct k; try (apply One; [discriminate|discriminate|reflexivity]).
      * apply One; [discriminate|discriminate|]. cbn [event at_enter] in *. now rewrite Ea.
      * exists [(Or, Press KQuit)]. split; [repeat constructor|]. split; [reflexivity|]. cbn. split; [exact A|]. split; [reflexivity|discriminate].
    + apply One; [discriminate|discriminate|reflexivity].
    + exists []. split; [constructor|]. split; [reflexivity|]. cbn. split; [exact A|]. split; [reflexivity|auto].
    + apply One; [discriminate|discriminate|reflexivity].
    + apply One; [discriminate|discriminate|reflexivity].
Qed.

Lemma checks_app es1 es2 : checks (es1 ++ es2) = (checks es1 || checks es2)%bool.
Proof. apply existsb_app. Qed.

Definition from (ors : list oracles) (es : list (oracles * input)) : Prop := Forall (fun e => In (fst e) ors) es.

Lemma events_like O0 es : forall s g, same_gui (t_gui s) g -> laid g -> exists es', from (O0 :: map fst es) es' /\ (snd (events C U tz dir center es s) = Ok true -> checks es' = checks es) /\
  step_like (events C U tz dir center es s) (play C U tz dir center es' g).
Proof.
  induction es as [|[Or i] es IH]; intros s g A L; cbn [events].
  - exists [(O0, Resize (t_w s) (t_h s))]. split; [constructor; [now left|constructor]|]. split; [reflexivity|]. assert (H := flush_like O0 s g A).
    cbn [play]. unfold bind. destruct (gui_step C U tz O0 dir center (Resize (t_w s) (t_h s)) g) as [g1 [[|]| |n]]; exact H.
  - destruct (event_like Or i s g A L) as (e1 & F1 & K1 & H1). destruct (event C U tz dir center Or i s) as [s1 r1].
    assert (G1 : from (O0 :: map fst ((Or, i) :: es)) e1) by (eapply Forall_impl; [|exact F1]; intros [o j]; cbn; intros ->; auto).
    destruct (play C U tz dir center e1 g) as [g1 q1] eqn:E1. destruct H1 as (A1 & R1 & L1). cbn [fst snd] in *. subst q1.
    destruct r1 as [[|]| |n].
    2-4: exists e1; split; [exact G1|]; split; [discriminate|]; rewrite E1; split; [exact A1|split; [reflexivity|discriminate]].
    destruct (IH s1 g1 A1 (L1 eq_refl)) as (e2 & F2 & K2 & H2). exists (e1 ++ e2). split; [|split].
    + apply Forall_app. split; [exact G1|]. eapply Forall_impl; [|exact F2]. intros [o j]; cbn. tauto.
    + intros Hk. rewrite checks_app, K1, (K2 Hk). change ((Or, i) :: es) with ([(Or, i)] ++ es). now rewrite checks_app.
    + rewrite play_app, E1. exact H2.
Qed.

Lemma turn_like O0 r s g : same_gui (t_gui s) g -> laid g -> exists es', from (O0 :: map fst (events_of r)) es' /\ (snd (turn_of C U tz dir center r s) = Ok true -> checks es' = checks (events_of r)) /\
  step_like (turn_of C U tz dir center r s) (play C U tz dir center es' g).
Proof.
  intros A L. destruct r as [es|Or i]; [now apply events_like|].
  assert (N : (forall o, checks [(o, i)] = false) -> exists es', from (O0 :: map fst (events_of (Beside Or i))) es' /\ (snd (s, Ok true : res bool) = Ok true -> checks es' = checks [(Or, i)]) /\
    step_like (s, Ok true) (play C U tz dir center es' g)).
  { intros Hc. exists []. split; [constructor|]. split; [now rewrite Hc|]. cbn. split; [exact A|]. split; [reflexivity|auto]. }
  assert (Y : exists es', from (O0 :: map fst (events_of (Beside Or i))) es' /\ (snd (event C U tz dir center Or i s) = Ok true -> checks es' = checks [(Or, i)]) /\
    step_like (event C U tz dir center Or i s) (play C U tz dir center es' g)).
  { destruct (event_like Or i s g A L) as (e & F & K & H). exists e. split; [|split; [auto|exact H]]. eapply Forall_impl; [|exact F]. intros [o j]; cbn. intros ->. auto. }
  destruct i; cbn [turn_of events_of]; first [exact Y|apply N; reflexivity].
Qed.

Lemma rounds_like O0 rs : forall s g, same_gui (t_gui s) g -> laid g -> exists es', from (O0 :: map fst (concat (map events_of rs))) es' /\ (snd (rounds C U tz dir center rs s) = Ok true -> checks es' = checks (concat (map events_of rs))) /\
  step_like (rounds C U tz dir center rs s) (play C U tz dir center es' g).
Proof.
  induction rs as [|r rs IH]; intros s g A L; cbn [rounds].
  - exists []. split; [constructor|]. split; [reflexivity|]. cbn. split; [exact A|]. split; [reflexivity|auto].
  - destruct (turn_like O0 r s g A L) as (e1 & F1 & K1 & H1). destruct (turn_of C U tz dir center r s) as [s1 r1].
    assert (G1 : from (O0 :: map fst (concat (map events_of (r :: rs)))) e1).
    { eapply Forall_impl; [|exact F1]. intros [o j]; cbn. rewrite map_app, in_app_iff. tauto. }
    destruct (play C U tz dir center e1 g) as [g1 q1] eqn:E1. destruct H1 as (A1 & R1 & L1). cbn [fst snd] in *. subst q1.
    destruct r1 as [[|]| |n].
    2-4: exists e1; split; [exact G1|]; split; [discriminate|]; rewrite E1; split; [exact A1|split; [reflexivity|discriminate]].
    destruct (IH s1 g1 A1 (L1 eq_refl)) as (e2 & F2 & K2 & H2). exists (e1 ++ e2). split; [|split].
    + apply Forall_app. split; [exact G1|]. eapply Forall_impl; [|exact F2]. intros [o j]; cbn. rewrite map_app, in_app_iff. tauto.
    + intros Hk. cbn [map concat]. now rewrite !checks_app, (K1 eq_refl), (K2 Hk).
    + rewrite play_app, E1. exact H2.
Qed.

(** ** Orderly rounds *)
Lemma typed_put n v v' g : view_of g n = Some v -> v_text v' = v_text v -> typed (set_ui (put_view n (Some v') (g_ui g)) g) = typed g.
Proof. intros E H. unfold typed, shown, view_of in *. cbn. destruct n; cbn; rewrite ?E; cbn; rewrite ?H; reflexivity. Qed.
Lemma typed_other n v g : n <> VPrompt -> typed (set_ui (put_view n v (g_ui g)) g) = typed g.
Proof. intros H. unfold typed, shown, view_of. cbn. destruct n; try reflexivity. congruence. Qed.
Lemma typed_on_view n f : n <> VPrompt -> holds typed (on_view n f).
Proof. intros H g. unfold on_view. destruct (ui_views (g_ui g) n); [|reflexivity]. exact (typed_other n _ g H). Qed.
Lemma typed_try_view n f : n <> VPrompt -> holds typed (try_view n f).
Proof. intros H g. unfold try_view. destruct (ui_views (g_ui g) n); [|reflexivity]. destruct (f v); [|reflexivity]. exact (typed_other n _ g H). Qed.
Lemma typed_set_view n x0 y0 x1 y1 : holds typed (set_view n x0 y0 x1 y1).
Proof.
  intros g. unfold set_view. destruct (_ || _)%bool; [reflexivity|]. fold (view_of g n). destruct (view_of g n) as [v|] eqn:E.
  - cbn [fst]. now apply (typed_put n v).
  - destruct n; try reflexivity. unfold typed, shown, view_of in *. cbn. now rewrite E.
Qed.
Lemma typed_delete n : n <> VPrompt -> holds typed (delete_view n).
Proof. intros H g. unfold delete_view. destruct (ui_views (g_ui g) n); [|reflexivity]. exact (typed_other n _ g H). Qed.

Ltac typeds := repeat lazymatch goal with
  | |- holds _ (match ?x with _ => _ end) => destruct x
  | |- _ (match ?x with _ => _ end) = _ => destruct x; try reflexivity
  | |- holds _ (ret _) => apply holds_ret
  | |- holds _ (lift _) => apply holds_lift
  | |- holds _ (get _) => apply holds_get
  | |- holds _ (on_app _) => apply holds_on_app; reflexivity
  | |- holds _ (on_view _ _) => apply typed_on_view; discriminate
  | |- holds _ (try_view _ _) => apply typed_try_view; discriminate
  | |- holds _ (set_view _ _ _ _ _) => apply typed_set_view
  | |- holds _ (delete_view _) => apply typed_delete; discriminate
  | |- holds _ (set_current _) => apply holds_current; reflexivity
  | |- holds _ (check _ _) => apply holds_check
  | |- holds _ (bind _ _) => apply holds_bind; [|intros ?]
  | |- holds _ (put _) => apply holds_put; intros ?; try reflexivity
  | |- holds _ (let _ := _ in _) => cbv zeta
  end.

Lemma typed_key Or cur k : ~ (cur = VPrompt /\ k = KEnter) -> holds typed (on_key C U tz Or center cur k).
Proof.
  intros H. destruct cur, k; cbn [on_key]; try (now elim H);
      unfold items_lock; unfold menu_lock, menu_down, menu_up, open_entry, go_back, row_down, row_up, reveal, cover, close_error, items_layout, items_update,
        show_overview, pick_item, details_update, details_layout, error_layout, menu_update, prompt_layout, show_help, help_update; typeds.
Qed.
Lemma typed_handle Or i g : (forall t, i <> Typed t) -> at_enter i (drawn g) = false -> typed (fst (handle C U tz Or dir center i g)) = typed g.
Proof.
  intros Ht He. destruct i as [k|t|w h| |d].
  - cbn [handle]. unfold bind, get. apply typed_key. intros [E ->]. cbn in He. now rewrite E in He.
  - now elim (Ht t).
  - reflexivity.
  - cbn [handle]. assert (H : holds typed (version_update dir)) by (unfold version_update; typeds). unfold bind, get. destruct (g_checking g); [|reflexivity].
    specialize (H g). destruct (version_update dir g) as [g1 [[]| |n]]; exact H.
  - reflexivity.
Qed.

(** ENTER in the prompt leaves no text. *)
Lemma typed_password Or g g' : enter_password C U tz Or center g = (g', Ok true) -> typed g' = [].
Proof.
  unfold enter_password. intros E. apply bind_inv in E. destruct E as (ga & v & E1 & E). unfold get in E1. injection E1 as <- <-. cbv zeta in E.
  apply check_inv in E. destruct E as (g1 & E1 & E2).
  assert (T : typed g1 = []).
  { unfold delete_view in E1. destruct (ui_views (g_ui g) VPrompt) eqn:Ev; [|discriminate E1]. injection E1 as <-. reflexivity. }
  rewrite <- T. match type of E2 with ?k _ = _ => assert (H : holds typed k) by (unfold error_layout, menu_update, prompt_layout; typeds) end.
  exact (held_in _ _ _ _ _ H E2).
Qed.

(** The text that was drawn is the text in the prompt; nothing waits for the next drawing but perhaps a new size. *)
Lemma event_one Or i s g : same_gui (t_gui s) g -> laid g -> (forall w h, i <> Resize w h) ->
  (at_enter i s = true -> t_seen s = typed (t_gui s)) ->
  step_like (event C U tz dir center Or i s) (gui_step C U tz Or dir center i g).
Proof.
  intros A L Hr Hs.
  assert (One : i <> Press KQuit -> event C U tz dir center Or i s = keep s (handle C U tz Or dir center i (t_gui s)) ->
     step_like (event C U tz dir center Or i s) (gui_step C U tz Or dir center i g)) by (intros H1 ->; now apply handled_like).
  destruct (at_enter i s) eqn:Ea.
  - destruct i as [[]| | | |]; try discriminate Ea. cbn [at_enter] in Ea. specialize (Hs eq_refl). cbn [event]. rewrite Ea. rewrite Hs.
    assert (Hc : current (t_gui s) = VPrompt) by (unfold current; destruct (ui_cur (g_ui (t_gui s))); try discriminate Ea; reflexivity).
    assert (H := handled_like Or (Press KEnter) s g A L ltac:(discriminate) Hr).
    set (m := on_view VPrompt _). assert (E : exists g1, (check m (handle C U tz Or dir center (Press KEnter)) (t_gui s) = handle C U tz Or dir center (Press KEnter) g1 /\ same_gui g1 (t_gui s)) \/
       (check m (handle C U tz Or dir center (Press KEnter)) (t_gui s) = handle C U tz Or dir center (Press KEnter) (t_gui s))).
    { unfold m, check, bind at 1, on_view. destruct (ui_views (g_ui (t_gui s)) VPrompt) as [v|] eqn:Ev.
      - eexists. left. split; [reflexivity|]. constructor; try reflexivity. intros n. unfold view_of. cbn. destruct n; try reflexivity. cbn. rewrite Ev. f_equal.
        unfold typed, shown, view_of. rewrite Ev. cbn. now destruct v.
      - exists (t_gui s). right. cbn [handle]. unfold bind, get. change (ui_cur (g_ui (t_gui s))) with (current (t_gui s)). rewrite Hc. cbn [on_key]. unfold enter_password, bind at 1, get at 1.
        unfold check, bind at 1, delete_view. rewrite Ev. reflexivity. }
    destruct E as (g1 & [[E A1]|E]); rewrite E; clear E m.
    + destruct (sim_handle Or (Press KEnter) _ _ A1) as [A2 E2]. unfold step_like, keep in *.
      destruct (handle C U tz Or dir center (Press KEnter) g1) as [h1 r1], (handle C U tz Or dir center (Press KEnter) (t_gui s)) as [h2 r2].
      cbn [fst snd t_gui] in *. subst r2. destruct H as (H1 & H2 & H3). split; [exact (alike_trans _ _ _ A2 H1)|]. auto.
    + unfold step_like, keep in *. destruct (handle C U tz Or dir center (Press KEnter) (t_gui s)) as [h2 r2]. exact H.
  - destruct i as [k|t|w h| |d]; try (apply One; [discriminate|reflexivity]); [|now elim (Hr w h)].
    destruct k; try (apply One; [discriminate|reflexivity]).
    + apply One; [discriminate|]. cbn [event at_enter] in *. now rewrite Ea.
    + cbn. split; [exact A|]. split; [reflexivity|discriminate].
Qed.

Lemma event_seen Or i s s' : (forall t, i <> Typed t) -> event C U tz dir center Or i s = (s', Ok true) -> t_seen s = typed (t_gui s) -> t_seen s' = typed (t_gui s').
Proof.
  intros Ht E Hs.
  assert (One : at_enter i s = false -> keep s (handle C U tz Or dir center i (t_gui s)) = (s', Ok true) -> t_seen s' = typed (t_gui s')).
  { intros Ha E1. assert (T := typed_handle Or i (t_gui s) Ht Ha). unfold keep in E1. injection E1 as <- _. cbn [t_seen t_gui]. congruence. }
  destruct (at_enter i s) eqn:Ea.
  - destruct i as [[]| | | |]; try discriminate Ea. cbn [at_enter] in Ea. cbn [event] in E. rewrite Ea in E.
    unfold keep in E. match type of E with context [fst ?m] => destruct m as [g1 r1] eqn:Em end. cbn [fst snd t_gui t_w t_h t_screen] in E. injection E as <- E. cbn [t_seen t_gui].
    destruct r1 as [[|]| |n]; try discriminate E. apply check_inv in Em. destruct Em as (g2 & E1 & E2). symmetry. apply (typed_password Or g2).
    cbn [handle] in E2. unfold bind, get in E2. assert (Hc : ui_cur (g_ui g2) = VPrompt).
    { unfold on_view in E1. destruct (ui_views (g_ui (t_gui s)) VPrompt); [|discriminate E1]. injection E1 as <-. cbn. destruct (ui_cur (g_ui (t_gui s))); try discriminate Ea. reflexivity. }
    rewrite Hc in E2. exact E2.
  - destruct i as [k|t|w h| |d]; try (apply One; [reflexivity|exact E]).
    + destruct k; try (apply One; [reflexivity|exact E]).
      * apply One; [reflexivity|]. cbn [event at_enter] in *. now rewrite Ea in E.
      * discriminate E.
    + injection E as <-. exact Hs.
Qed.

Lemma event_size Or i s : (forall w h, i <> Resize w h) -> dims (t_gui (fst (event C U tz dir center Or i s))) = dims (t_gui s) /\
  t_w (fst (event C U tz dir center Or i s)) = t_w s /\ t_h (fst (event C U tz dir center Or i s)) = t_h s.
Proof.
  intros Hr.
  assert (One : event C U tz dir center Or i s = keep s (handle C U tz Or dir center i (t_gui s)) -> dims (t_gui (fst (event C U tz dir center Or i s))) = dims (t_gui s) /\
    t_w (fst (event C U tz dir center Or i s)) = t_w s /\ t_h (fst (event C U tz dir center Or i s)) = t_h s).
  { intros ->. unfold keep. cbn. split; [exact (dims_handle Or i Hr (t_gui s))|auto]. }
  destruct (at_enter i s) eqn:Ea.
  - destruct i as [[]| | | |]; try discriminate Ea. cbn [at_enter] in Ea. cbn [event]. rewrite Ea. unfold keep. cbn. split; [|auto].
    assert (H : holds dims (check (on_view VPrompt (fun v => write (t_seen s) (clear v))) (handle C U tz Or dir center (Press KEnter)))).
    { apply holds_check; [apply dims_on_view, size_written|exact (dims_handle Or (Press KEnter) Hr)]. }
    exact (H (t_gui s)).
  - destruct i as [k|t|w h| |d]; try (apply One; reflexivity).
    + destruct k; try (apply One; reflexivity).
      * apply One. cbn [event at_enter] in *. now rewrite Ea.
      * auto.
    + now elim (Hr w h).
Qed.

Definition settled (s : term) (g : gui) : Prop :=
  same_gui (t_gui s) g /\ laid g /\ t_w s = ui_w (g_ui g) /\ t_h s = ui_h (g_ui g).

Lemma gui_same_size Or s g : settled s g -> exists g', gui_step C U tz Or dir center (Resize (t_w s) (t_h s)) g = (g', Ok true) /\ same_gui g g'.
Proof.
  intros (A & L & Hw & Hh). unfold gui_step. unfold check, bind at 1, bind at 1. cbn [handle]. unfold bind at 1, put, ret at 1. fold (resize (t_w s) (t_h s) g).
  assert (A0 : same_gui g (resize (t_w s) (t_h s) g)) by (rewrite Hw, Hh; constructor; reflexivity).
  destruct (layout_again _ (laid_alike _ _ A0 L)) as (g' & E & A1). rewrite E. exists g'. split; [reflexivity|]. exact (alike_trans _ _ _ A0 A1).
Qed.

Lemma flush_drawn s s' : flush center s = (s', Ok true) -> t_seen s' = typed (t_gui s') /\ (t_w s' = t_w s /\ t_h s' = t_h s) /\ (forall n, t_screen s' n = shown (t_gui s') n) /\
  ui_w (g_ui (t_gui s')) = t_w s /\ ui_h (g_ui (t_gui s')) = t_h s.
Proof.
  unfold flush. destruct (layout center (resize (t_w s) (t_h s) (t_gui s))) as [g r] eqn:E. intros H. injection H as <- H. cbn.
  destruct r as [[|]| |n]; try discriminate H.
  assert (D : ui_w (g_ui g) = t_w s /\ ui_h (g_ui g) = t_h s).
  { unfold layout in E. apply check_inv in E. destruct E as (g1 & E1 & E). apply check_inv in E. destruct E as (g2 & E2 & E3).
    unfold version_layout, bind at 1, get at 1 in E1. apply part_after in E1; [|tauto|dimmed]. destruct E1 as (S1 & W1 & H1 & O1).
    unfold help_layout, bind at 1, get at 1 in E2. apply part_after in E2; [|tauto|unfold help_update; dimmed]. destruct E2 as (S2 & W2 & H2 & O2).
    unfold menu_layout, bind at 1, get at 1 in E3. apply part_after in E3; [|tauto|unfold menu_update, prompt_layout, show_help, help_update; dimmed]. destruct E3 as (S3 & W3 & H3 & O3).
    cbn in W1, H1. split; congruence. }
  split; [|auto]. unfold typed, shown, view_of. now destruct (ui_views (g_ui g) VPrompt).
Qed.

(** The state between two rounds. *)
Definition between (s : term) (g : gui) : Prop := settled s g /\ t_seen s = typed (t_gui s).

Lemma orderly_typed es : orderly_keys es -> forall t es', es = Typed t :: es' -> ~ In (Press KEnter) es' /\ orderly_keys es'.
Proof. intros H t es' ->. exact H. Qed.

Lemma events_orderly es : forall s g, settled s g -> orderly_keys (map snd es) -> (t_seen s = typed (t_gui s) \/ ~ In (Press KEnter) (map snd es)) ->
  let x := events C U tz dir center es s in let y := play C U tz dir center es g in
  same_gui (t_gui (fst x)) (fst y) /\ snd x = snd y /\ (snd x = Ok true -> between (fst x) (fst y)).
Proof.
  induction es as [|[Or i] es IH]; intros s g H Ho Hs.
  - cbn [events play]. cbv zeta. assert (F := flush_like forwards s g (proj1 H)). destruct (gui_same_size forwards s g H) as (g' & E & A). rewrite E in F.
    destruct (flush center s) as [s' r] eqn:Ef. destruct F as (F1 & F2 & F3). cbn [fst snd ret] in *. subst r. specialize (F3 eq_refl).
    destruct (flush_drawn _ _ Ef) as (D1 & D2 & D3 & D4). assert (A2 := alike_trans _ _ _ F1 (alike_sym _ _ A)).
    split; [exact A2|]. split; [reflexivity|]. intros _. destruct H as (H1 & H2 & H3 & H4). repeat split; auto; try apply A2; try apply H2; destruct D2; congruence.
  - assert (Hr : (exists w h, i = Resize w h) \/ forall w h, i <> Resize w h) by (destruct i; [right|right|left|right|right]; try discriminate; eauto).
    destruct Hr as [(w & h & ->)|Hr].
    + cbn [map orderly_keys snd] in Ho. destruct es; [|discriminate Ho]. cbn [events event play]. cbv zeta.
      set (s1 := MkTerm (t_gui s) (t_seen s) w h (t_screen s)). assert (F := flush_like Or s1 g (proj1 H)). change (t_w s1) with w in F. change (t_h s1) with h in F.
      destruct (flush center s1) as [s' r] eqn:Ef. unfold bind. destruct (gui_step C U tz Or dir center (Resize w h) g) as [g' r'] eqn:Eg. destruct F as (F1 & F2 & F3). cbn [fst snd ret] in *. subst r'.
      destruct r as [[|]| |n]; cbn [fst snd ret]; (split; [exact F1|split; [reflexivity|]]); try discriminate. intros _.
      destruct (flush_drawn _ _ Ef) as (D1 & D2 & D3 & D4 & D5). split; [|exact D1]. split; [exact F1|]. split; [now apply F3|]. rewrite <- (al_w _ _ F1), <- (al_h _ _ F1). destruct D2; split; congruence.
    + cbn [events play]. cbv zeta. unfold bind. destruct H as (H1 & H2 & H3 & H4).
      assert (Hse : at_enter i s = true -> t_seen s = typed (t_gui s)).
      { intros He. destruct Hs as [Hs|Hs]; [exact Hs|]. destruct i as [[]| | | |]; try discriminate He. elim Hs. now left. }
      assert (E := event_one Or i s g H1 H2 Hr Hse). assert (Z := event_size Or i s Hr).
      destruct (event C U tz dir center Or i s) as [s1 r1] eqn:Ee, (gui_step C U tz Or dir center i g) as [g1 q1] eqn:Eg. destruct E as (E1 & E2 & E3). cbn [fst snd] in *. subst q1.
      destruct r1 as [[|]| |n]; cbn [fst snd ret]; try (split; [exact E1|split; [reflexivity|discriminate]]).
      destruct Z as (Z1 & Z2 & Z3). apply IH.
      * split; [exact E1|]. split; [now apply E3|]. rewrite <- (al_w _ _ E1), <- (al_h _ _ E1). unfold dims in Z1. injection Z1 as Z1 Z4 _ _ _. rewrite Z1, Z4, (al_w _ _ H1), (al_h _ _ H1). split; congruence.
      * destruct i as [k|t|w h| |d]; try exact Ho; [exact (proj2 Ho)|now elim (Hr w h)].
      * assert (Ht : (exists t, i = Typed t) \/ forall t, i <> Typed t) by (destruct i; [right|left|right|right|right]; try discriminate; eauto).
        destruct Ht as [(t & ->)|Ht]; [right; exact (proj1 Ho)|]. destruct Hs as [Hs|Hs]; [left; exact (event_seen Or i s s1 Ht Ee Hs)|right]. intros Hn. apply Hs. now right.
Qed.

Lemma beside_one Or i s g : between s g -> beside i ->
  let x := event C U tz dir center Or i s in let y := gui_step C U tz Or dir center i g in
  same_gui (t_gui (fst x)) (fst y) /\ snd x = snd y /\ (snd x = Ok true -> between (fst x) (fst y)).
Proof.
  intros [(H1 & H2 & H3 & H4) Hs] Hb. cbv zeta. assert (Hr : forall w h, i <> Resize w h) by (intros w h ->; destruct Hb). assert (Ht : forall t, i <> Typed t) by (intros t ->; destruct Hb).
  assert (E := event_one Or i s g H1 H2 Hr (fun _ => Hs)). assert (Z := event_size Or i s Hr). assert (S := event_seen Or i s).
  destruct (event C U tz dir center Or i s) as [s1 r1], (gui_step C U tz Or dir center i g) as [g1 q1]. destruct E as (E1 & E2 & E3). cbn [fst snd] in *. subst q1.
  split; [exact E1|]. split; [reflexivity|]. intros ->. specialize (S s1 Ht eq_refl Hs). split; [|exact S]. destruct Z as (Z1 & Z2 & Z3).
  split; [exact E1|]. split; [now apply E3|]. rewrite <- (al_w _ _ E1), <- (al_h _ _ E1). unfold dims in Z1. injection Z1 as Z1 Z4 _ _ _. rewrite Z1, Z4, (al_w _ _ H1), (al_h _ _ H1). split; congruence.
Qed.

Lemma rounds_orderly rs : forall s g, between s g -> Forall orderly rs ->
  let x := rounds C U tz dir center rs s in let y := play C U tz dir center (concat (map events_of rs)) g in
  same_gui (t_gui (fst x)) (fst y) /\ snd x = snd y /\ (snd x = Ok true -> between (fst x) (fst y)).
Proof.
  induction rs as [|r rs IH]; intros s g H Ho; cbn [rounds map concat].
  - cbn. split; [apply H|]. split; [reflexivity|auto].
  - inversion Ho as [|r0 rs0 Ho1 Ho2]; subst. cbv zeta. rewrite play_app.
    assert (T : let x := turn_of C U tz dir center r s in let y := play C U tz dir center (events_of r) g in
      same_gui (t_gui (fst x)) (fst y) /\ snd x = snd y /\ (snd x = Ok true -> between (fst x) (fst y))).
    { destruct r as [es|Or i]; cbn [turn_of events_of].
      - apply events_orderly; [apply H|exact Ho1|left; apply H].
      - assert (B := beside_one Or i s g H Ho1). cbv zeta in *. cbn [play]. unfold bind. destruct i; try (now elim Ho1);
        (match goal with |- context [gui_step ?c ?u ?z ?o ?d ?ce ?i g] => destruct (gui_step c u z o d ce i g) as [g1 [[|]| |n]] end; exact B). }
    cbv zeta in T. destruct (turn_of C U tz dir center r s) as [s1 r1], (play C U tz dir center (events_of r) g) as [g1 q1]. cbn [fst snd] in T. destruct T as (T1 & T2 & T3). subst q1.
    destruct r1 as [[|]| |n]; try (cbn [fst snd]; split; [exact T1|split; [reflexivity|discriminate]]). apply IH; [now apply T3|exact Ho2].
Qed.

(** ** Terminals that cannot be told apart *)
Record twins (s1 s2 : term) : Prop := {
  tw_gui : same_gui (t_gui s1) (t_gui s2); tw_seen : t_seen s1 = t_seen s2; tw_w : t_w s1 = t_w s2; tw_h : t_h s1 = t_h s2 }.
Definition both (x y : term * res bool) : Prop := twins (fst x) (fst y) /\ snd x = snd y.

Lemma keep_both s1 s2 p1 p2 : twins s1 s2 -> same_gui (fst p1) (fst p2) -> snd p1 = snd p2 -> both (keep s1 p1) (keep s2 p2).
Proof. intros [] H1 H2. unfold keep. split; [now constructor|]. cbn. now rewrite H2. Qed.
Lemma event_both Or i s1 s2 : twins s1 s2 -> both (event C U tz dir center Or i s1) (event C U tz dir center Or i s2).
Proof.
  intros T. assert (K : both (keep s1 (handle C U tz Or dir center i (t_gui s1))) (keep s2 (handle C U tz Or dir center i (t_gui s2)))).
  { destruct (sim_handle Or i _ _ (tw_gui _ _ T)). now apply keep_both. }
  destruct i as [k|t|w h| |d]; try exact K; [|destruct T; now split].
  destruct k; try exact K; [|now split]. cbn [event].
  change (ui_cur (g_ui (t_gui s1))) with (current (t_gui s1)). change (ui_cur (g_ui (t_gui s2))) with (current (t_gui s2)). rewrite (al_cur _ _ (tw_gui _ _ T)).
  destruct (vname_eqb _ _); [|exact K]. rewrite (tw_seen _ _ T).
  destruct (sim_check _ _ _ _ (sim_on_view VPrompt (fun v => write (t_seen s2) (clear v))) (sim_handle Or (Press KEnter)) _ _ (tw_gui _ _ T)) as [H1 H2].
  assert (B := keep_both s1 s2 _ _ T H1 H2). destruct (keep s1 _) as [u1 r1], (keep s2 _) as [u2 r2]. destruct B as [[] B]. cbn [fst snd] in *. now split.
Qed.
Lemma flush_both s1 s2 : twins s1 s2 -> both (flush center s1) (flush center s2).
Proof.
  intros T. unfold flush. rewrite (tw_w _ _ T), (tw_h _ _ T).
  assert (A : same_gui (resize (t_w s2) (t_h s2) (t_gui s1)) (resize (t_w s2) (t_h s2) (t_gui s2))) by (destruct (tw_gui _ _ T); constructor; auto).
  destruct (sim_layout _ _ A) as [A1 E1]. destruct (layout center (resize _ _ (t_gui s1))) as [g1 r1], (layout center (resize _ _ (t_gui s2))) as [g2 r2]. cbn [fst snd] in *. subst r2.
  split; [|reflexivity]. constructor; try reflexivity; [exact A1|]. cbn. fold (view_of g1 VPrompt). fold (view_of g2 VPrompt). now rewrite (al_view _ _ A1).
Qed.
Lemma events_both es : forall s1 s2, twins s1 s2 -> both (events C U tz dir center es s1) (events C U tz dir center es s2).
Proof.
  induction es as [|[Or i] es IH]; intros s1 s2 T; cbn [events]; [now apply flush_both|].
  assert (B := event_both Or i s1 s2 T). destruct (event C U tz dir center Or i s1) as [u1 r1], (event C U tz dir center Or i s2) as [u2 r2]. destruct B as [B1 B2]. cbn [fst snd] in *. subst r2.
  destruct r1 as [[|]| |n]; try (now split). now apply IH.
Qed.

(** The text typed together with ENTER does not count. *)
Lemma typed_lost O1 O2 t es s : current (t_gui s) = VPrompt -> view_of (t_gui s) VPrompt <> None ->
  both (events C U tz dir center ((O1, Typed t) :: (O2, Press KEnter) :: es) s) (events C U tz dir center ((O2, Press KEnter) :: es) s).
Proof.
  intros Hc Hv. destruct (view_of (t_gui s) VPrompt) as [v|] eqn:Ev; [|congruence]. clear Hv.
  pose (s1 := MkTerm (set_ui (put_view VPrompt (Some (write t (clear v))) (g_ui (t_gui s))) (t_gui s)) (t_seen s) (t_w s) (t_h s) (t_screen s)).
  assert (E1 : event C U tz dir center O1 (Typed t) s = (s1, Ok true)).
  { cbn [event handle]. unfold keep, bind, get. change (ui_cur (g_ui (t_gui s))) with (current (t_gui s)). rewrite Hc. unfold on_view. fold (view_of (t_gui s) VPrompt). rewrite Ev. reflexivity. }
  cbn [events]. rewrite E1. clear E1.
  assert (B : both (event C U tz dir center O2 (Press KEnter) s1) (event C U tz dir center O2 (Press KEnter) s)).
  { cbn [event]. change (ui_cur (g_ui (t_gui s1))) with (current (t_gui s)). change (ui_cur (g_ui (t_gui s))) with (current (t_gui s)). rewrite Hc. cbn [vname_eqb]. change (t_seen s1) with (t_seen s).
    assert (X : forall k, sim k k -> same_gui (fst (check (on_view VPrompt (fun v => write (t_seen s) (clear v))) k (t_gui s1))) (fst (check (on_view VPrompt (fun v => write (t_seen s) (clear v))) k (t_gui s))) /\
       snd (check (on_view VPrompt (fun v => write (t_seen s) (clear v))) k (t_gui s1)) = snd (check (on_view VPrompt (fun v => write (t_seen s) (clear v))) k (t_gui s))).
    { intros k Hk. unfold check, bind, on_view. change (ui_views (g_ui (t_gui s)) VPrompt) with (view_of (t_gui s) VPrompt). rewrite Ev. cbn [t_gui s1 set_ui g_ui put_view ui_views vname_eqb].
      apply Hk. constructor; try reflexivity. intros n. unfold view_of. cbn. destruct n; reflexivity. }
    destruct (X _ (sim_handle O2 (Press KEnter))) as [X1 X2]. unfold keep. split; [constructor; try reflexivity; exact X1|]. cbn [snd]. now rewrite X2. }
  destruct (event C U tz dir center O2 (Press KEnter) s1) as [u1 r1], (event C U tz dir center O2 (Press KEnter) s) as [u2 r2]. destruct B as [B1 B2]. cbn [fst snd] in *. subst r2.
  destruct r1 as [[|]| |n]; try (now split). now apply events_both.
Qed.

Lemma rounds_app rs1 rs2 s : rounds C U tz dir center (rs1 ++ rs2) s =
  match rounds C U tz dir center rs1 s with
  | (s', Ok true) => rounds C U tz dir center rs2 s'
  | x => x
  end.
Proof.
  revert s. induction rs1 as [|r rs1 IH]; intros s; [reflexivity|]. cbn [Datatypes.app rounds]. destruct (turn_of C U tz dir center r s) as [s1 [[|]| |n]]; try reflexivity. apply IH.
Qed.
Lemma events_drawn es : forall s s', events C U tz dir center es s = (s', Ok true) -> forall n, t_screen s' n = shown (t_gui s') n.
Proof.
  induction es as [|[Or i] es IH]; intros s s' E; cbn [events] in E; [apply (flush_drawn s s' E)|].
  destruct (event C U tz dir center Or i s) as [s1 [[|]| |n]]; try discriminate E. exact (IH _ _ E).
Qed.
Lemma event_screen Or i s : t_screen (fst (event C U tz dir center Or i s)) = t_screen s.
Proof. destruct i as [k|t|w h| |d]; try reflexivity. destruct k; try reflexivity. cbn [event]. destruct (vname_eqb _ _); reflexivity. Qed.
Lemma beside_screen Or i s : t_screen (fst (turn_of C U tz dir center (Beside Or i) s)) = t_screen s.
Proof. destruct i; try reflexivity; exact (event_screen Or _ s). Qed.
End Same.

(** ** From the start of the program *)
Lemma start_laid center path w h a g y : start_gui center path w h a = (g, Ok y) -> y = true /\ laid g.
Proof.
  unfold start_gui. destruct (pick_vault path a) as [a' [v| |n]]; try discriminate. intros E.
  apply bind_inv in E. destruct E as (g2 & x & E & E'). destruct x; [|discriminate E']. unfold ret in E'. assert (g2 = g) by congruence. subst g2.
  split; [congruence|]. exact (laid_after [] center _ _ E).
Qed.

Lemma process_play C U tz Y dir center path w h world g0 : gui_process C U tz Y dir center path w h [] world = (g0, Ok true) ->
  laid g0 /\ forall es, gui_process C U tz Y dir center path w h es world = play C U tz dir center es g0.
Proof.
  unfold gui_process. destruct (load_config Y (w_disk world) dir) as [m| |n]; try discriminate. destruct (first_run U Y dir (MkApp world m init)) as [a [x| |n]]; try discriminate.
  destruct (start_gui center path w h a) as [g [y| |n]] eqn:E; try discriminate. intros H. cbn [play] in H. unfold ret in H. injection H as <-. destruct (start_laid _ _ _ _ _ _ _ E) as [_ L]. auto.
Qed.
Lemma process_fails C U tz Y dir center path w h world g0 r : gui_process C U tz Y dir center path w h [] world = (g0, r) -> r <> Ok true ->
  forall es, gui_process C U tz Y dir center path w h es world = (g0, r).
Proof.
  unfold gui_process. destruct (load_config Y (w_disk world) dir) as [m| |n]; try (intros H _ es; exact H). destruct (first_run U Y dir (MkApp world m init)) as [a [x| |n]]; try (intros H _ es; exact H).
  destruct (start_gui center path w h a) as [g [y| |n]]; try (intros H _ es; exact H). intros H Hr. cbn [play] in H. unfold ret in H. congruence.
Qed.
Lemma drawn_between g : laid g -> between (drawn g) g.
Proof.
  intros L. split; [|unfold typed, shown, view_of; cbn; now destruct (ui_views (g_ui g) VPrompt)]. split; [apply alike_refl|]. split; [exact L|]. split; reflexivity.
Qed.
