(** Properties of the GUI: secrets, locking and passwords (C72-C76), and what it sends (C61). *)
From Verif Require Import Base Utf8 Spec_Trim GoStrings FieldsProof Base64 Float64 Json Spec_Item Civil Crypto CryptoProof Path Fs Domain DomainProof Repos Session SessionProof
  World WorldProof Config Updater Cli CliProof CliEvents Spec_Vault Spec_Writer Spec_Domain VaultProof Toy ToyYaml Gui Spec_Gui GuiProof GuiRun.
From Verif Require Import Properties_Vault Properties_Session Properties_Update Properties_Check Properties_Cli Properties_Show Properties_End Properties_Gui.

Local Notation newline := World.newline.
Local Notation details_lines := Gui.details_lines.

(** ** C72 *)

Lemma rows_listed C U tz O cats idx s row : reachable C U tz s -> oracles_ok O -> In row (rows_of U O cats idx s) ->
  exists i, held s i /\ row = row_of i.
Proof.
  intros Hr HO Hin.
  assert (H : exists cat tr, rows_of U O cats idx s = get_items U O cat [] tr s).
  { unfold rows_of. destruct (Nat.eqb (length cats) 1); [eauto|]. destruct (idx =? _)%Z; [eauto|]. destruct (idx =? 0)%Z; eauto. }
  destruct H as (cat & tr & E). rewrite E in Hin. apply (C24_listing_exact C U tz O s cat [] tr HO Hr) in Hin.
  destruct Hin as (i & Hh & _ & ->). eauto.
Qed.

Lemma chosen_held C U tz mk g row : reachable C U tz (session g) -> open_list U tz mk g -> chosen_row g = Some row ->
  exists i, held (session g) i /\ row = row_of i /\ chosen_item g = Some i.
Proof.
  intros Hr (_ & (O & HO & L2) & _) Hc. assert (Hin : In row (g_rows g)).
  { unfold chosen_row in Hc. destruct (g_row_idx g <? 0)%Z; [discriminate Hc|]. eapply nth_error_In; eauto. }
  rewrite L2 in Hin. destruct (rows_listed C U tz O _ _ _ _ Hr HO Hin) as (i & Hh & ->). exists i. split; [exact Hh|]. split; [reflexivity|].
  unfold chosen_item. rewrite Hc. exact Hh.
Qed.

(** Whatever happened before, unless the item is revealed, the screen shows at most the text of the selected
    item with its secrets replaced. *)
Theorem C72_masked_unless_revealed : forall C U tz Y dir center g,
  running C U tz Y dir center g -> current g <> VDetails ->
  shown g VDetails = None \/ (shown g VDetails = Some [] /\ chosen_row g = None) \/
  exists i, held (session g) i /\ chosen_row g = Some (row_of i) /\ shown g VDetails = Some (full_text tz (masked i)).
Proof.
  intros C U tz Y dir center g R Hc. apply running_inv in R. assert (M := gi_mode _ _ _ _ _ R). assert (Hr := gi_reach _ _ _ _ _ R).
  assert (N : no_list g -> shown g VDetails = None) by (intros [_ H]; unfold shown; now rewrite H).
  unfold mode in M. destruct (current g); try contradiction; try (left; apply N; tauto).
  - right. destruct M as (_ & L & _). destruct (chosen_row g) as [row|] eqn:E.
    + right. destruct (chosen_held C U tz true g row Hr L E) as (i & Hh & -> & Hi). exists i. split; [exact Hh|]. split; [reflexivity|].
      destruct L as (_ & _ & _ & _ & ->). change (selected_item g) with (chosen_item g). rewrite Hi. unfold item_text, full_text. now rewrite masked_details.
    + left. split; [|reflexivity]. destruct L as (_ & _ & _ & _ & ->). unfold selected_item. change (selected_row g) with (chosen_row g). now rewrite E.
Qed.
Print Assumptions C72_masked_unless_revealed.

(** While it is revealed, the whole text of the selected item is shown. *)
Theorem C72_revealed_item : forall C U tz Y dir center g,
  running C U tz Y dir center g -> current g = VDetails ->
  exists i, held (session g) i /\ chosen_row g = Some (row_of i) /\ shown g VDetails = Some (full_text tz i).
Proof.
  intros C U tz Y dir center g R Hc. apply running_inv in R. assert (M := gi_mode _ _ _ _ _ R). assert (Hr := gi_reach _ _ _ _ _ R).
  unfold mode in M. rewrite Hc in M. destruct M as (_ & L & _ & Hs & _). change (selected_row g) with (chosen_row g) in Hs.
  destruct (chosen_row g) as [row|] eqn:E; [|congruence].
  destruct (chosen_held C U tz false g row Hr L E) as (i & Hh & -> & Hi). exists i. split; [exact Hh|]. split; [reflexivity|].
  destruct L as (_ & _ & _ & _ & ->). change (selected_item g) with (chosen_item g). now rewrite Hi.
Qed.
Print Assumptions C72_revealed_item.

Lemma chosen_same g g' : g_rows g' = g_rows g -> g_row_idx g' = g_row_idx g -> chosen_row g' = chosen_row g.
Proof. unfold chosen_row. now intros -> ->. Qed.

Lemma handle_reveals C U tz dir center O i g g1 : ginv C U tz center g -> oracles_ok O -> handle C U tz O dir center i g = (g1, Ok true) ->
  current g1 = VDetails -> (i = Press KTab /\ current g = VItems \/ current g = VDetails) /\ chosen_row g1 = chosen_row g /\ session g1 = session g.
Proof.
  intros G HO H H1.
  assert (Stay : g1 = g -> (i = Press KTab /\ current g = VItems \/ current g = VDetails) /\ chosen_row g1 = chosen_row g /\ session g1 = session g).
  { intros ->. auto. }
  destruct i as [k|t|w h| |d].
  - unfold handle, get in H. unfold bind at 1 in H. change (ui_cur (g_ui g)) with (current g) in H. destruct (current g) eqn:Hc.
    + destruct k; cbn [on_key] in H; apply Stay; unfold ret in H; congruence.
    + destruct k; cbn [on_key] in H; apply Stay; unfold ret in H; congruence.
    + destruct k; cbn [on_key] in H; try (apply Stay; unfold ret in H; congruence); exfalso.
      * destruct (menu_up_run C U tz dir center g G Hc) as (g2 & E & (_ & _ & _ & _ & C2 & _)). congruence.
      * destruct (menu_down_run C U tz dir center g G Hc) as (g2 & E & (_ & _ & _ & _ & C2 & _)). congruence.
      * destruct (Z.eq_dec (g_menu_idx g) (-1)) as [X|X].
        { unfold open_entry, get in H. unfold bind at 1 in H. rewrite X in H. unfold ret in H. cbn in H. congruence. }
        destruct (roomy_dec C U tz dir center g) as [Y|Y]; [|rewrite (open_entry_small C U tz dir center O g X Y) in H; congruence].
        destruct (open_entry_inv C U tz dir center O g HO G Hc X Y) as (g2 & E & _ & C2 & _). congruence.
      * destruct (Z.eq_dec (g_menu_idx g) (-1)) as [X|X].
        { unfold open_entry, get in H. unfold bind at 1 in H. rewrite X in H. unfold ret in H. cbn in H. congruence. }
        destruct (roomy_dec C U tz dir center g) as [Y|Y]; [|rewrite (open_entry_small C U tz dir center O g X Y) in H; congruence].
        destruct (open_entry_inv C U tz dir center O g HO G Hc X Y) as (g2 & E & _ & C2 & _). congruence.
      * destruct (menu_lock_run C U tz dir center g G Hc) as (g2 & E & (_ & C2 & _)). congruence.
    + destruct k; cbn [on_key] in H; try (apply Stay; unfold ret in H; congruence).
      * exfalso. destruct (row_up_run C U tz dir center g G Hc) as (g2 & E & (_ & _ & _ & _ & C2) & _). congruence.
      * exfalso. destruct (row_down_run C U tz dir center g G Hc) as (g2 & E & (_ & _ & _ & _ & C2) & _). congruence.
      * exfalso. destruct (back_inv C U tz dir center g G (or_introl Hc)) as [E _]. assert (g1 = back g) by congruence. subst g1. discriminate H1.
      * assert (V := reveal_run C U tz dir center g G Hc). destruct (selected_row g); [|destruct V as [V _]; congruence].
        destruct V as (g2 & E & _ & _ & _ & A2 & R2 & I2 & _). assert (g1 = g2) by congruence. subst g2. split; [auto|]. split; [now apply chosen_same|]. unfold session. now rewrite A2.
      * exfalso. destruct (back_inv C U tz dir center g G (or_introl Hc)) as [E _]. assert (g1 = back g) by congruence. subst g1. discriminate H1.
      * exfalso. destruct (items_lock_run C U tz dir center g G (or_introl Hc)) as (g2 & E & (_ & C2 & _)). congruence.
    + assert (Sc : forall f, moves f -> try_view VDetails f g = (g1, Ok true) -> chosen_row g1 = chosen_row g /\ session g1 = session g).
      { intros f Hf E. destruct (scroll_run C U tz dir center f g Hf G Hc) as (g2 & E2 & _ & L). assert (g1 = g2) by congruence. subst g2.
        split; [apply chosen_same; apply L|]. unfold session. now rewrite (lk_app _ _ L). }
      split; [auto|]. destruct k; cbn [on_key] in H.
      * eapply Sc; [apply (scroll_up_moves C U tz dir center)|exact H].
      * eapply Sc; [apply (scroll_down_moves C U tz dir center)|exact H].
      * eapply Sc; [apply (scroll_left_moves C U tz dir center)|exact H].
      * eapply Sc; [apply (scroll_right_moves C U tz dir center)|exact H].
      * apply Stay. unfold ret in H. congruence.
      * exfalso. destruct (cover_run C U tz dir center g G Hc) as (g2 & E & _ & C2 & _). congruence.
      * apply Stay. unfold ret in H. congruence.
      * exfalso. destruct (items_lock_run C U tz dir center g G (or_intror Hc)) as (g2 & E & (_ & C2 & _)). congruence.
      * apply Stay. unfold ret in H. congruence.
    + destruct k; cbn [on_key] in H; try (apply Stay; unfold ret in H; congruence); exfalso.
      assert (V := enter_password_run C U tz dir center O g HO G Hc).
      destruct (unlock C U tz O (disk_of g) (g_vault g) (trim_space (typed g)) (session g)) as [[s' [e|]]| |n].
      * destruct V as (g2 & E & _ & C2 & _). congruence.
      * destruct V as (g2 & E & _ & C2 & _). congruence.
      * destruct V as (g2 & E). congruence.
      * destruct V as (g2 & E). congruence.
    + destruct k; cbn [on_key] in H; try (apply Stay; unfold ret in H; congruence); exfalso.
      destruct (close_error_run C U tz dir center g G Hc) as (g2 & E & _ & C2 & _). congruence.
  - unfold handle, get in H. unfold bind at 1 in H. change (ui_cur (g_ui g)) with (current g) in H.
    destruct (current g) eqn:Hc; try (apply Stay; unfold ret in H; congruence). exfalso.
    unfold on_view in H. destruct (ui_views (g_ui g) VPrompt); [|congruence]. assert (E : current g1 = current g) by (injection H as <-; reflexivity). congruence.
  - unfold handle, put, bind, ret in H. assert (E : current g1 = current g /\ chosen_row g1 = chosen_row g /\ session g1 = session g) by (injection H as <-; auto).
    destruct E as (E1 & E2 & E3). split; [right; congruence|auto].
  - unfold handle, get in H. unfold bind at 1 in H. destruct (g_checking g); [|apply Stay; unfold ret in H; congruence].
    assert (V0 := gi_version _ _ _ _ _ G). destruct (view_of g VVersion) as [v|] eqn:Ev; [|congruence].
    assert (V := version_update_run C U tz dir center g v Ev). assert (Va := update_check_vault C U tz dir center (g_app g)).
    destruct (update_check dir (g_app g)) as [a [r| |n]]; unfold bind in H.
    + destruct V as (t & V). rewrite V in H. unfold ret in H. assert (E : current g1 = current g /\ chosen_row g1 = chosen_row g /\ session g1 = a_vault a) by (injection H as <-; auto).
      destruct E as (E1 & E2 & E3). cbn [fst] in Va. split; [right; congruence|]. split; [exact E2|]. rewrite E3, Va. reflexivity.
    + rewrite V in H. congruence.
    + rewrite V in H. congruence.
  - unfold handle, put, bind, ret in H. assert (E : current g1 = current g /\ chosen_row g1 = chosen_row g /\ session g1 = session g) by (injection H as <-; auto).
    destruct E as (E1 & E2 & E3). split; [right; congruence|auto].
Qed.

(** An item is revealed only by TAB on the list, with the item selected there, and stays the same until the
    view is left. *)
Theorem C72_only_tab_reveals : forall C U tz Y dir center g g' O i,
  running C U tz Y dir center g -> oracles_ok O -> gui_step C U tz O dir center i g = (g', Ok true) -> current g' = VDetails ->
  (i = Press KTab /\ current g = VItems \/ current g = VDetails) /\ chosen_row g' = chosen_row g /\ session g' = session g.
Proof.
  intros C U tz Y dir center g g' O i R HO H Hc. assert (G := running_inv _ _ _ _ _ _ _ R).
  assert (S := step_run C U tz dir center O i g HO G). rewrite H in S. destruct S as (_ & g1 & E & _ & Rs).
  rewrite (rs_cur _ _ Rs) in Hc. rewrite (chosen_same g1 g' (rs_rows _ _ Rs) (rs_ridx _ _ Rs)), (resized_session C U tz dir center _ _ Rs).
  now apply (handle_reveals C U tz dir center O).
Qed.
Print Assumptions C72_only_tab_reveals.

(** Keys leave the size of the terminal alone. *)
Definition sized {A} (m : gact A) : Prop := forall g, ui_w (g_ui (fst (m g))) = ui_w (g_ui g) /\ ui_h (g_ui (fst (m g))) = ui_h (g_ui g).

Lemma sized_ret {A} (x : A) : sized (ret x).
Proof. intros g. auto. Qed.
Lemma sized_lift {A} (x : res A) : sized (lift x).
Proof. intros g. auto. Qed.
Lemma sized_get {A} (f : gui -> A) : sized (get f).
Proof. intros g. auto. Qed.
Lemma sized_bind {A B} (m : gact A) (k : A -> gact B) : sized m -> (forall x, sized (k x)) -> sized (bind m k).
Proof.
  intros Hm Hk g. unfold bind. specialize (Hm g). destruct (m g) as [g1 [x| |n]]; cbn [fst] in *; [|exact Hm|exact Hm].
  destruct (Hk x g1) as [E1 E2]. rewrite E1, E2. exact Hm.
Qed.
Lemma sized_check (m k : gact bool) : sized m -> sized k -> sized (check m k).
Proof. intros Hm Hk. apply sized_bind; [exact Hm|]. intros [|]; [exact Hk|apply sized_ret]. Qed.
Lemma sized_put f : (forall g, g_ui (f g) = g_ui g) -> sized (put f).
Proof. intros H g. cbn. now rewrite H. Qed.
Lemma sized_on_app {A} (m : act A) : sized (on_app m).
Proof. intros g. unfold on_app. destruct (m (g_app g)) as [a r]. auto. Qed.
Lemma sized_on_view n f : sized (on_view n f).
Proof. intros g. unfold on_view. destruct (ui_views (g_ui g) n); auto. Qed.
Lemma sized_try_view n f : sized (try_view n f).
Proof. intros g. unfold try_view. destruct (ui_views (g_ui g) n); [destruct (f v)|]; auto. Qed.
Lemma sized_set_view n x0 y0 x1 y1 : sized (set_view n x0 y0 x1 y1).
Proof. intros g. unfold set_view. destruct (_ || _)%bool; [auto|]. destruct (ui_views (g_ui g) n); auto. Qed.
Lemma sized_delete n : sized (delete_view n).
Proof. intros g. unfold delete_view. destruct (ui_views (g_ui g) n); auto. Qed.
Lemma sized_current n : sized (set_current n).
Proof. intros g. unfold set_current. destruct (ui_views (g_ui g) n); auto. Qed.

Ltac sized := repeat lazymatch goal with
  | |- sized (match ?x with _ => _ end) => destruct x
  | |- g_ui (match ?x with _ => _ end) = _ => destruct x
  | |- g_ui _ = _ => reflexivity
  | |- sized (ret _) => apply sized_ret
  | |- sized (lift _) => apply sized_lift
  | |- sized (get _) => apply sized_get
  | |- sized (on_app _) => apply sized_on_app
  | |- sized (on_view _ _) => apply sized_on_view
  | |- sized (try_view _ _) => apply sized_try_view
  | |- sized (set_view _ _ _ _ _) => apply sized_set_view
  | |- sized (delete_view _) => apply sized_delete
  | |- sized (set_current _) => apply sized_current
  | |- sized (check _ _) => apply sized_check
  | |- sized (bind _ _) => apply sized_bind; [|intros ?]
  | |- sized (put _) => apply sized_put; intros ?
  | |- sized (let _ := _ in _) => cbv zeta
  end.

Lemma sized_help h : sized (show_help h).
Proof. unfold show_help, help_update. sized. Qed.
Lemma sized_pick : sized pick_item.
Proof. unfold pick_item. sized. Qed.
Lemma sized_details tz m : sized (details_update tz m).
Proof. unfold details_update. sized. Qed.
Lemma sized_overview tz : sized (show_overview tz).
Proof. unfold show_overview. apply sized_bind; [apply sized_pick|]. intros _. apply sized_details. Qed.
Lemma sized_items_update tz : sized (items_update tz).
Proof. unfold items_update. sized; apply sized_overview. Qed.
Lemma sized_items_layout tz : sized (items_layout tz).
Proof. unfold items_layout, details_layout. sized; first [apply sized_items_update | apply sized_help]. Qed.
Lemma sized_open_entry U tz O : sized (open_entry U tz O).
Proof. unfold open_entry. sized; first [apply sized_items_layout | apply sized_items_update]. Qed.
Lemma sized_menu_update center : sized (menu_update center).
Proof. unfold menu_update, prompt_layout. sized. Qed.
Lemma sized_menu_lock center : sized (menu_lock center).
Proof. unfold menu_lock. sized; first [apply sized_menu_update | apply sized_help]. Qed.
Lemma sized_go_back : sized go_back.
Proof. unfold go_back. sized. Qed.
Lemma sized_key C U tz O center n k : sized (on_key C U tz O center n k).
Proof.
  destruct n, k; cbn [on_key]; try apply sized_ret; try apply sized_try_view; try apply sized_open_entry; try apply sized_menu_lock; try apply sized_go_back.
  - unfold menu_up. sized.
  - unfold menu_down. sized.
  - unfold row_up. sized. apply sized_overview.
  - unfold row_down. sized. apply sized_overview.
  - unfold reveal. sized; first [apply sized_pick | apply sized_details | apply sized_help].
  - unfold items_lock. sized; first [apply sized_go_back | apply sized_menu_lock].
  - unfold cover. sized; first [apply sized_details | apply sized_help].
  - unfold items_lock. sized; first [apply sized_go_back | apply sized_menu_lock].
  - unfold enter_password, error_layout. sized; apply sized_menu_update.
  - unfold close_error. sized; apply sized_menu_update.
Qed.

Lemma press C U tz Y dir center O k g g1 :
  running C U tz Y dir center g -> oracles_ok O -> k <> KQuit -> fits g -> on_key C U tz O center (current g) k g = (g1, Ok true) ->
  exists g', gui_step C U tz O dir center (Press k) g = (g', Ok true) /\ running C U tz Y dir center g' /\ resized g1 g' /\ fits g'.
Proof.
  intros R HO Hk Hf E. destruct (sized_key C U tz O center (current g) k g) as [W H]. rewrite E in W, H. cbn [fst] in W, H.
  destruct (key_step C U tz Y dir center O (Press k) g g1 R HO) as (g' & E' & R' & Rs); [congruence|unfold fits in *; now rewrite W, H|eapply on_view_is; [reflexivity|exact E]|].
  exists g'. split; [exact E'|]. split; [exact R'|]. split; [exact Rs|]. unfold fits in *. now rewrite (rs_w _ _ Rs), (rs_h _ _ Rs), W, H.
Qed.

(** TAB reveals the selected item, TAB covers it again. *)
Theorem C72_tab : forall C U tz Y dir center g O,
  running C U tz Y dir center g -> oracles_ok O -> fits g -> (current g = VItems /\ chosen_row g <> None) \/ current g = VDetails ->
  exists g', gui_step C U tz O dir center (Press KTab) g = (g', Ok true) /\ running C U tz Y dir center g' /\
    current g' = (match current g with VItems => VDetails | _ => VItems end) /\ chosen_row g' = chosen_row g /\ session g' = session g.
Proof.
  intros C U tz Y dir center g O R HO Hf Hc. assert (G := running_inv _ _ _ _ _ _ _ R).
  assert (H : exists g1, on_key C U tz O center (current g) KTab g = (g1, Ok true) /\ current g1 = (match current g with VItems => VDetails | _ => VItems end) /\
     g_app g1 = g_app g /\ g_rows g1 = g_rows g /\ g_row_idx g1 = g_row_idx g).
  { destruct Hc as [[Hc Hs]|Hc]; rewrite Hc.
    - assert (V := reveal_run C U tz dir center g G Hc). change (selected_row g) with (chosen_row g) in V. destruct (chosen_row g) as [row|] eqn:Er; [|congruence].
      destruct V as (g1 & E & G1 & C1 & _ & A1 & R1 & I1 & _). exists g1. auto.
    - destruct (cover_run C U tz dir center g G Hc) as (g1 & E & G1 & C1 & _ & A1 & R1 & I1 & _). exists g1. auto. }
  destruct H as (g1 & E & C1 & A1 & R1 & I1). destruct (press C U tz Y dir center O KTab g g1 R HO ltac:(discriminate) Hf E) as (g' & E' & R' & Rs & _).
  exists g'. split; [exact E'|]. split; [exact R'|]. split; [rewrite (rs_cur _ _ Rs); exact C1|].
  split; [rewrite (chosen_same g1 g' (rs_rows _ _ Rs) (rs_ridx _ _ Rs)); now apply chosen_same|].
  rewrite (resized_session C U tz dir center _ _ Rs). unfold session. now rewrite A1.
Qed.
Print Assumptions C72_tab.

Example C72_example :
  let g := fst (demo_gui (vault_world (b "/v") []) (enter_freddy ++ [Press KEnter; Press KDown])) in
  let g' := fst (demo_gui (vault_world (b "/v") []) (enter_freddy ++ [Press KEnter; Press KDown; Press KTab])) in
  demo_running g /\ current g = VItems /\ fits g /\
  shown g VDetails = Some (join_lines [b "Credit Card"; dashes; b "Visa"; []; b "Updated: 2014-05-13 16:53:21"; b "Created: 2011-03-13 07:06:41"; b "Trashed: false";
     []; b "Main"; dashes; b "Pin: **********"; []]) /\
  demo_running g' /\ current g' = VDetails /\
  shown g' VDetails = Some (join_lines [b "Credit Card"; dashes; b "Visa"; []; b "Updated: 2014-05-13 16:53:21"; b "Created: 2011-03-13 07:06:41"; b "Trashed: false";
     []; b "Main"; dashes; b "Pin: 1234"; []]).
Proof.
  split; [apply demo_runs; vm_compute; reflexivity|]. split; [vm_compute; reflexivity|]. split; [vm_compute; split; discriminate|]. split; [vm_compute; reflexivity|].
  split; [apply demo_runs; vm_compute; reflexivity|]. split; vm_compute; reflexivity.
Qed.

(** ** C73 *)

(** While the vault is locked, whatever happened before, nothing of it is on the screen. *)
Theorem C73_locked_screen : forall C U tz Y dir center g,
  running C U tz Y dir center g -> is_unlocked (session g) = false ->
  shown g VMenu = Some [] /\ shown g VItems = None /\ shown g VDetails = None /\
  (current g = VPrompt /\ shown g VPrompt <> None /\ shown g VError = None \/
   current g = VError /\ shown g VPrompt = None /\ exists e, shown g VError = Some (err_text e)).
Proof.
  intros C U tz Y dir center g R Hu. apply running_inv in R. assert (M := gi_mode _ _ _ _ _ R).
  unfold mode, closed_menu, no_list, shown in *. destruct (current g); try contradiction; try (destruct M as ((X & _) & _); congruence).
  - destruct M as ((_ & _ & _ & M1) & (M2 & M3) & M4 & M5). rewrite M2, M3, M5. split; [exact M1|]. split; [reflexivity|]. split; [reflexivity|].
    left. split; [reflexivity|]. split; [|reflexivity]. destruct (view_of g VPrompt); [discriminate|congruence].
  - destruct M as ((_ & _ & _ & M1) & (M2 & M3) & M4 & (e & _ & M5)). rewrite M2, M3, M4. split; [exact M1|]. split; [reflexivity|]. split; [reflexivity|].
    right. split; [reflexivity|]. split; [reflexivity|]. eauto.
Qed.
Print Assumptions C73_locked_screen.

(** CTRL+L locks from everywhere. *)
Theorem C73_lock_key : forall C U tz Y dir center g O,
  running C U tz Y dir center g -> oracles_ok O -> fits g -> is_unlocked (session g) = true ->
  exists g', gui_step C U tz O dir center (Press KLock) g = (g', Ok true) /\ running C U tz Y dir center g' /\
    is_unlocked (session g') = false /\ shows_nothing U (session g') /\
    current g' = VPrompt /\ shown g' VPrompt = Some [] /\ shown g' VMenu = Some [] /\ shown g' VItems = None /\ shown g' VDetails = None /\ shown g' VError = None /\
    shown g' VVersion = shown g VVersion /\ shown g' VHelp = Some (tabbed (keys_anywhere ++ keys_in_menu)).
Proof.
  intros C U tz Y dir center g O R HO Hf Hu. assert (G := running_inv _ _ _ _ _ _ _ R).
  replace (tabbed (keys_anywhere ++ keys_in_menu)) with (help_text menu_help) by (vm_compute; reflexivity).
  assert (H : exists g1, on_key C U tz O center (current g) KLock g = (g1, Ok true) /\ locked_look C U tz center g g1).
  { assert (M := gi_mode _ _ _ _ _ G). unfold mode, closed_menu in M. destruct (current g) eqn:Hc; try contradiction.
    - apply (menu_lock_run C U tz dir center g G Hc).
    - apply (items_lock_run C U tz dir center g G (or_introl Hc)).
    - apply (items_lock_run C U tz dir center g G (or_intror Hc)).
    - destruct M as ((X & _) & _). congruence.
    - destruct M as ((X & _) & _). congruence. }
  destruct H as (g1 & E & (G1 & C1 & S1 & P1 & M1 & I1 & D1 & E1 & H1 & _ & _ & _ & _ & _ & _ & V1 & _)).
  destruct (press C U tz Y dir center O KLock g g1 R HO ltac:(discriminate) Hf E) as (g' & E' & R' & Rs & _).
  assert (S' : session g' = lock (session g)) by (rewrite (resized_session C U tz dir center _ _ Rs); exact S1).
  assert (L' : is_unlocked (session g') = false) by (rewrite S'; apply (locked_lock C U tz dir center)).
  assert (Sh := fun n => resized_shown C U tz dir center g1 g' n Rs).
  exists g'. split; [exact E'|]. split; [exact R'|]. split; [exact L'|].
  split; [apply (C21_locked_shows_nothing C U tz); [exact (gi_reach _ _ _ _ _ (running_inv _ _ _ _ _ _ _ R'))|exact L']|].
  split; [rewrite (rs_cur _ _ Rs); exact C1|]. rewrite !Sh. unfold shown in *. rewrite I1, D1, E1, V1. auto 10.
Qed.
Print Assumptions C73_lock_key.

Example C73_example :
  let g := fst (demo_gui (vault_world (b "/v") []) (enter_freddy ++ [Press KEnter; Press KTab])) in
  demo_running g /\ fits g /\ is_unlocked (session g) = true /\ current g = VDetails.
Proof.
  set (p := demo_gui (vault_world (b "/v") []) (enter_freddy ++ [Press KEnter; Press KTab])).
  assert (E : (snd p, (ui_w (g_ui (fst p)), ui_h (g_ui (fst p))), is_unlocked (session (fst p)), current (fst p)) = (Ok true, (80%Z, 24%Z), true, VDetails)) by (vm_compute; reflexivity).
  apply pair_eq in E. destruct E as [E E4]. apply pair_eq in E. destruct E as [E E3]. apply pair_eq in E. destruct E as [E1 E2]. apply pair_eq in E2. destruct E2 as [E2 E2'].
  split; [exact (demo_runs _ _ E1)|]. split; [unfold fits; cbv zeta; fold p; rewrite E2, E2'; split; discriminate|]. split; [exact E3|exact E4].
Qed.

(** ** C74 *)

(** Partial: the vault object forgets items and keys; what stays behind in the widgets is the list of rows and
    the item that was selected last. *)
Theorem C74_lock_forgets_partial : forall C U tz Y dir center g g' O,
  running C U tz Y dir center g -> oracles_ok O -> is_unlocked (session g) = true ->
  gui_step C U tz O dir center (Press KLock) g = (g', Ok true) ->
  st_items (session g') = None /\ st_keys (session g') = None /\ g_rows g' = g_rows g /\ g_item g' = g_item g.
Proof.
  intros C U tz Y dir center g g' O R HO Hu H. assert (G := running_inv _ _ _ _ _ _ _ R).
  assert (S := step_run C U tz dir center O (Press KLock) g HO G). rewrite H in S. destruct S as (_ & g2 & E2 & _ & Rs).
  assert (H1 : exists g1, on_key C U tz O center (current g) KLock g = (g1, Ok true) /\ locked_look C U tz center g g1).
  { assert (M := gi_mode _ _ _ _ _ G). unfold mode, closed_menu in M. destruct (current g) eqn:Hc; try contradiction.
    - apply (menu_lock_run C U tz dir center g G Hc).
    - apply (items_lock_run C U tz dir center g G (or_introl Hc)).
    - apply (items_lock_run C U tz dir center g G (or_intror Hc)).
    - destruct M as ((X & _) & _). congruence.
    - destruct M as ((X & _) & _). congruence. }
  destruct H1 as (g1 & E & (_ & _ & S1 & _ & _ & _ & _ & _ & _ & R1 & I1 & _)).
  assert (g2 = g1).
  { unfold handle, get in E2. unfold bind at 1 in E2. change (ui_cur (g_ui g)) with (current g) in E2. congruence. }
  subst g2. rewrite (resized_session C U tz dir center _ _ Rs), S1, (rs_rows _ _ Rs), (rs_item _ _ Rs), R1, I1. auto.
Qed.
Print Assumptions C74_lock_forgets_partial.

(** Refuted: after CTRL+L the GUI still holds the item with its secret. *)
Theorem C74_lock_forgets_refuted : exists C U tz Y dir center g O g' i f,
  running C U tz Y dir center g /\ is_unlocked (session g) = true /\
  gui_step C U tz O dir center (Press KLock) g = (g', Ok true) /\ current g' = VPrompt /\
  g_item g' = Some i /\ In f (flat_map sec_fields (it_sections i)) /\ fld_value f = b "1234" /\ g_rows g' <> [].
Proof.
  set (p := demo_gui (vault_world (b "/v") []) (enter_freddy ++ [Press KEnter; Press KDown])).
  set (q := gui_step toy_crypto latin1 utc forwards (b "/c") (fun t _ => t) (Press KLock) (fst p)).
  assert (E : (snd p, is_unlocked (session (fst p)), snd q, (current (fst q), option_map it_sections (g_item (fst q)), length (g_rows (fst q)))) =
    (Ok true, true, Ok true, (VPrompt, Some [MkSection (b "Main") [MkField (b "Pin") (b "1234")]], 2))) by (vm_compute; reflexivity).
  apply pair_eq in E. destruct E as [E E4]. apply pair_eq in E. destruct E as [E E3]. apply pair_eq in E. destruct E as [E1 E2].
  apply pair_eq in E4. destruct E4 as [E4 E6]. apply pair_eq in E4. destruct E4 as [E4 E5].
  destruct (g_item (fst q)) as [i|] eqn:Ei; [|discriminate E5]. cbn [option_map] in E5.
  exists toy_crypto, latin1, utc, toy_yaml, (b "/c"), (fun t _ => t), (fst p), forwards, (fst q), i, (MkField (b "Pin") (b "1234")).
  split; [exact (demo_runs _ _ E1)|]. split; [exact E2|]. split; [rewrite <- E3; unfold q; apply surjective_pairing|]. split; [exact E4|]. split; [exact Ei|].
  split; [|split; [reflexivity|]].
  - assert (X : it_sections i = [MkSection (b "Main") [MkField (b "Pin") (b "1234")]]) by congruence. rewrite X. left. reflexivity.
  - intros X. rewrite X in E6. discriminate E6.
Qed.
Print Assumptions C74_lock_forgets_refuted.

(** ** C75 *)

(** The password does not authenticate the master key of the profile. *)
Definition wrong_password (C : crypto) (p : gmap json) (password : bytes) : Prop :=
  exists salt iterations st mt m,
    has_str (b "salt") p st /\ b64_decode st = (salt, true) /\ mget (b "iterations") p = Some (JNum iterations) /\
    has_str (b "masterKey") p mt /\ b64_decode mt = (m, true) /\ 32 <= length m /\
    ~ authentic C (skipn 32 (pbkdf2 C password salt (f64_to_int64 iterations))) m.

(** ENTER after a wrong password shows the error; ENTER again shows an empty prompt; the vault stays locked. *)
Theorem C75_wrong_password : forall C U tz Y dir center g O p password,
  running C U tz Y dir center g -> oracles_ok O -> fits g -> current g = VPrompt ->
  st_profile (session g) = Some p -> trimmed (typed g) password -> wrong_password C p password ->
  exists g1, gui_step C U tz O dir center (Press KEnter) g = (g1, Ok true) /\ running C U tz Y dir center g1 /\
    fits g1 /\ current g1 = VError /\ shown g1 VError = Some (b "invalid password") /\ shown g1 VMenu = Some [] /\ shown g1 VPrompt = None /\
    session g1 = session g /\ is_unlocked (session g1) = false /\
  forall O', oracles_ok O' ->
  exists g2, gui_step C U tz O' dir center (Press KEnter) g1 = (g2, Ok true) /\ running C U tz Y dir center g2 /\
    fits g2 /\ current g2 = VPrompt /\ shown g2 VPrompt = Some [] /\ shown g2 VError = None /\ session g2 = session g.
Proof.
  intros C U tz Y dir center g O p password R HO Hf Hc Hp Ht (salt & its & st & mt & m & W1 & W2 & W3 & W4 & W5 & W6 & W7). apply trimmed_eq in Ht. subst password.
  assert (G := running_inv _ _ _ _ _ _ _ R).
  assert (H := enter_password_run C U tz dir center O g HO G Hc).
  rewrite (C11_wrong_password_refused C U tz O _ _ _ _ p salt its st mt m Hp W1 W2 W3 W4 W5 W6 W7) in H.
  destruct H as (h & E & G1 & C1 & S1 & _ & _ & T1).
  destruct (press C U tz Y dir center O KEnter g h R HO ltac:(discriminate) Hf) as (g1 & E1 & R1 & Rs1 & F1); [rewrite Hc; exact E|].
  assert (C1' : current g1 = VError) by (rewrite (rs_cur _ _ Rs1); exact C1).
  assert (S1' : session g1 = session g) by (rewrite (resized_session C U tz dir center _ _ Rs1); exact S1).
  assert (Gg := running_inv _ _ _ _ _ _ _ R1).
  assert (Hl : is_unlocked (session g1) = false) by (assert (M := gi_mode _ _ _ _ _ Gg); unfold mode in M; rewrite C1' in M; apply M).
  destruct (C73_locked_screen _ _ _ _ _ _ _ R1 Hl) as (Sm & _ & _ & [(X & _)|(_ & Sp & _)]); [congruence|].
  exists g1. split; [exact E1|]. split; [exact R1|]. split; [exact F1|]. split; [exact C1'|].
  split; [rewrite (resized_shown C U tz dir center _ _ _ Rs1); exact T1|]. split; [exact Sm|]. split; [exact Sp|]. split; [exact S1'|]. split; [exact Hl|].
  intros O' HO'. destruct (close_error_run C U tz dir center g1 Gg C1') as (h2 & E2 & G2 & C2 & S2 & _ & T2 & N2).
  destruct (press C U tz Y dir center O' KEnter g1 h2 R1 HO' ltac:(discriminate) F1) as (g2 & E2' & R2 & Rs2 & F2); [rewrite C1'; exact E2|].
  exists g2. split; [exact E2'|]. split; [exact R2|]. split; [exact F2|]. split; [rewrite (rs_cur _ _ Rs2); exact C2|].
  rewrite !(resized_shown C U tz dir center _ _ _ Rs2), (resized_session C U tz dir center _ _ Rs2), S2, S1'. unfold shown at 2. rewrite N2. auto.
Qed.
Print Assumptions C75_wrong_password.

Lemma type_step C U tz Y dir center g O t :
  running C U tz Y dir center g -> oracles_ok O -> fits g -> current g = VPrompt ->
  exists g', gui_step C U tz O dir center (Typed t) g = (g', Ok true) /\ running C U tz Y dir center g' /\ fits g' /\ current g' = VPrompt /\
    typed g' = t /\ session g' = session g /\ g_vault g' = g_vault g /\ g_app g' = g_app g.
Proof.
  intros R HO Hf Hc. assert (G := running_inv _ _ _ _ _ _ _ R). assert (M := gi_mode _ _ _ _ _ G). unfold mode in M. rewrite Hc in M.
  destruct M as (_ & _ & M & _). destruct (view_of g VPrompt) as [v|] eqn:Ev; [|congruence].
  set (g1 := sv VPrompt (write t (clear v)) g).
  assert (E : handle C U tz O dir center (Typed t) g = (g1, Ok true)).
  { unfold handle, get. unfold bind at 1. change (ui_cur (g_ui g)) with (current g). rewrite Hc. exact (on_view_sv C U tz dir center VPrompt _ g v Ev). }
  destruct (key_step C U tz Y dir center O (Typed t) g g1 R HO ltac:(discriminate)) as (g' & E' & R' & Rs); [exact Hf|exact E|].
  exists g'. split; [exact E'|]. split; [exact R'|]. split; [unfold fits; rewrite (rs_w _ _ Rs), (rs_h _ _ Rs); exact Hf|]. split; [rewrite (rs_cur _ _ Rs); exact Hc|].
  split; [unfold typed; rewrite (resized_shown C U tz dir center _ _ _ Rs); unfold shown, g1; rewrite (view_sv C U tz dir center); reflexivity|].
  split; [rewrite (resized_session C U tz dir center _ _ Rs); reflexivity|]. split; [rewrite (rs_vault _ _ Rs); reflexivity|rewrite (rs_app _ _ Rs); reflexivity].
Qed.

(** Any number of wrong passwords, each typed, entered and acknowledged, leaves the program where it was. *)
Definition attempt (x : (oracles * oracles * oracles) * bytes) : list (oracles * input) :=
  let '((O1, O2, O3), p) := x in [(O1, Typed p); (O2, Press KEnter); (O3, Press KEnter)].

Theorem C75_any_number : forall C U tz Y dir center g p attempts,
  running C U tz Y dir center g -> fits g -> current g = VPrompt -> st_profile (session g) = Some p ->
  Forall (fun x => let '((O1, O2, O3), t) := x in oracles_ok O1 /\ oracles_ok O2 /\ oracles_ok O3 /\
    exists password, trimmed t password /\ wrong_password C p password) attempts ->
  exists g', play C U tz dir center (flat_map attempt attempts) g = (g', Ok true) /\ running C U tz Y dir center g' /\ fits g' /\
    current g' = VPrompt /\ session g' = session g /\ is_unlocked (session g') = false /\ (attempts <> [] -> shown g' VPrompt = Some []).
Proof.
  intros C U tz Y dir center g p attempts R Hf Hc Hp Ha. revert g R Hf Hc Hp.
  induction Ha as [|[[[O1 O2] O3] t] attempts (H1 & H2 & H3 & password & Htr & Hw) Ha IH]; intros g R Hf Hc Hp.
  - exists g. split; [reflexivity|]. split; [exact R|]. split; [exact Hf|]. split; [exact Hc|]. split; [reflexivity|]. split; [|congruence].
    assert (M := gi_mode _ _ _ _ _ (running_inv _ _ _ _ _ _ _ R)). unfold mode in M. rewrite Hc in M. apply M.
  - destruct (type_step C U tz Y dir center g O1 t R H1 Hf Hc) as (ga & Ea & Ra & Fa & Ca & Ta & Sa & _).
    destruct (C75_wrong_password C U tz Y dir center ga O2 p password Ra H2 Fa Ca) as (gb & Eb & _ & _ & _ & _ & _ & _ & _ & _ & Hb); [now rewrite Sa|now rewrite Ta|exact Hw|].
    destruct (Hb O3 H3) as (gc & Ec & Rc & Fc & Cc & Tc & _ & Sc).
    destruct (IH gc Rc Fc Cc) as (g' & E' & R' & F' & C' & S' & L' & T'); [now rewrite Sc, Sa|].
    exists g'. split; [|split; [exact R'|split; [exact F'|split; [exact C'|split; [now rewrite S', Sc, Sa|split; [exact L'|]]]]]].
    + cbn [flat_map attempt Datatypes.app play]. unfold bind. rewrite Ea, Eb, Ec. exact E'.
    + intros _. destruct attempts as [|x attempts]; [|apply T'; discriminate]. cbn [flat_map play] in E'. unfold ret in E'. assert (g' = gc) by congruence. subst g'. exact Tc.
Qed.
Print Assumptions C75_any_number.

Lemma authentic_tail C mac blob : crypto_ok C -> authentic C mac blob ->
  skipn (length blob - 32) blob = hmac256 C mac (firstn (length blob - 32) blob).
Proof.
  intros HC (body & ->). assert (H := hmac_len C HC mac body). rewrite app_length, H, Nat.add_sub.
  rewrite skipn_app, Nat.sub_diag, skipn_all, firstn_app, Nat.sub_diag, firstn_all, firstn_O, app_nil_r. reflexivity.
Qed.

Example C75_example :
  let g := fst (demo_gui (vault_world (b "/v") []) [Typed (b "wrong")]) in
  demo_running g /\ fits g /\ current g = VPrompt /\ st_profile (session g) = Some (write_profile toy_crypto (b "freddy") demo_secrets) /\
  wrong_password toy_crypto (write_profile toy_crypto (b "freddy") demo_secrets) (b "wrong") /\ trimmed (typed g) (b "wrong").
Proof.
  split; [apply demo_runs; vm_compute; reflexivity|]. split; [vm_compute; split; discriminate|]. split; [reflexivity|]. split; [vm_compute; reflexivity|].
  split; [|apply trimmed_iff; vm_compute; reflexivity]. eexists. eexists. eexists. eexists. eexists.
  split; [vm_compute; reflexivity|]. split; [vm_compute; reflexivity|]. split; [vm_compute; reflexivity|]. split; [vm_compute; reflexivity|]. split; [vm_compute; reflexivity|].
  split; [apply Nat.leb_le; vm_compute; reflexivity|]. intros E. apply (authentic_tail _ _ _ toy_crypto_ok) in E. vm_compute in E. discriminate E.
Qed.

(** ** C76 *)

Lemma pick_vault_ok path a a' vault cfg : get_config (a_conf a) = Ok cfg -> pick_vault path a = (a', Ok vault) ->
  vault = vault_in_use path (a_conf a) /\ exists s1, validate (w_disk (a_world a)) vault (a_vault a) = Ok (s1, None) /\ a' = MkApp (a_world a) (a_conf a) s1.
Proof.
  intros Hcfg H. unfold pick_vault in H. unfold bind at 1 in H.
  assert (E : (match path with [] => bind config_now (fun c => ret (cfg_vault c)) | _ => ret path end) a = (a, Ok (vault_in_use path (a_conf a)))).
  { rewrite vault_in_use_path. destruct path; [|reflexivity]. unfold config_now, bind, the_conf, lift. rewrite Hcfg. unfold ret, vault_path. now rewrite (get_config_vault _ _ Hcfg). }
  rewrite E in H. clear E. unfold bind, on_vault in H. set (v := vault_in_use path (a_conf a)) in *.
  destruct (validate (w_disk (a_world a)) v (a_vault a)) as [[s1 [e|]]| |n] eqn:Ev; cbv beta iota in H.
  - unfold say, on_world, println, print, os_exit, lift in H. cbn in H. congruence.
  - unfold ret in H. assert (v = vault /\ a' = MkApp (a_world a) (a_conf a) s1) by (split; congruence). destruct H0 as [<- ->]. eauto.
  - congruence.
  - congruence.
Qed.

(** What is typed in the GUI is tried without the white space around it: whatever [p] is, the GUI does with [p] what the command
    does with [t], that is [p] without that white space.  A password that begins or ends with white space can therefore not be given to the GUI. *)
Theorem C76_gui_trims_refuted : forall C U tz Y T render dir center path W H O O' p t w w' m cfg g,
  oracles_ok O -> oracles_ok O' ->
  load_config Y (w_disk w) dir = Ok m -> is_available m = true -> get_config m = Ok cfg -> cfg_notify cfg = false ->
  w_disk w' = w_disk w -> typed_pass w' = t -> trimmed p t -> (6 <= W)%Z -> (10 <= H)%Z ->
  gui_process C U tz Y dir center path W H [(O', Typed p); (O, Press KEnter)] w = (g, Ok true) ->
  let (w1, r) := process C U tz O Y T render dir (CmdList path [] [] false) w' in
  (current g = VMenu /\ r = Ok tt) \/
  (current g = VError /\ shown g VError = Some (b "invalid password") /\ r = Exit 1 /\
   screen w1 = screen w' ++ [b "Password:" ++ newline; b "invalid password" ++ newline]).
Proof.
  intros C U tz Y T render dir center path W H O O' p t w w' m cfg g HO HO' Hl Hav Hcfg Hn Hd Hp Ht HW HH Hg. apply trimmed_eq in Ht. symmetry in Ht.
  unfold gui_process in Hg. rewrite Hl in Hg.
  assert (Ef : first_run U Y dir (MkApp w m init) = (MkApp w m init, Ok tt)) by (unfold first_run, bind, the_conf; cbn [a_conf]; rewrite Hav; reflexivity).
  rewrite Ef in Hg. destruct (start_gui center path W H (MkApp w m init)) as [g0 [y| |n]] eqn:Es; [|congruence|congruence].
  assert (y = true) as -> by exact (start_answer C U tz dir center path W H _ g0 y Es).
  assert (R0 : running C U tz Y dir center g0).
  { exists path, W, H, [], w. split; [constructor|]. unfold gui_process. rewrite Hl, Ef, Es. reflexivity. }
  unfold start_gui in Es. destruct (pick_vault path (MkApp w m init)) as [a' [vault| |n]] eqn:Ep; [|congruence|congruence].
  destruct (pick_vault_ok path (MkApp w m init) a' vault cfg Hcfg Ep) as (Hvault & s1 & Hval & Ha'). cbn [a_world a_conf a_vault] in Hvault, Hval, Ha'.
  assert (Hr1 : reachable C U tz s1 /\ is_unlocked s1 = false).
  { assert (X := pick_vault_session C U tz dir center path _ _ _ Ep). rewrite Ha' in X. cbn [a_vault] in X. apply X; [apply init_reachable|reflexivity]. }
  destruct (first_layout C U tz dir center a' vault W H) as (g0' & ok & Ey & F); [rewrite Ha'; apply Hr1|rewrite Ha'; apply Hr1|].
  unfold bind in Es. rewrite Ey in Es. destruct ok; [|unfold os_exit, lift in Es; congruence]. unfold ret in Es. assert (g0' = g0) by congruence. subst g0'.
  destruct F as (_ & C0 & _ & _ & A0 & V0 & W0 & H0 & _).
  assert (F0 : fits g0) by (unfold fits; rewrite W0, H0; auto).
  destruct (type_step C U tz Y dir center g0 O' p R0 HO' F0 C0) as (g1 & E1 & R1 & F1 & C1 & T1 & S1 & V1 & A1).
  cbn [play] in Hg. unfold bind in Hg. rewrite E1 in Hg. assert (G1 := running_inv _ _ _ _ _ _ _ R1).
  assert (Hu := enter_password_run C U tz dir center O g1 HO G1 C1).
  assert (Sess : session g1 = s1) by (rewrite S1; unfold session; rewrite A0, Ha'; reflexivity).
  assert (Disk : disk_of g1 = w_disk w) by (unfold disk_of; rewrite A1, A0, Ha'; reflexivity).
  rewrite Sess, Disk, V1, V0, T1, Ht in Hu.
  (* the command *)
  rewrite process_run, Hd, Hl, (run_prepared C U tz O Y T render dir (CmdList path [] [] false) path (MkApp w' m init) eq_refl).
  assert (Hpr : prepare U Y dir (MkApp w' m init) = (MkApp w' m init, Ok tt)).
  { unfold prepare. unfold bind at 1. unfold first_run. unfold bind at 1. unfold the_conf. cbn [a_conf]. rewrite Hav. unfold ret. apply (silent_check dir (MkApp w' m init) cfg); assumption. }
  rewrite Hpr, choose_eq. cbn [snd a_conf].
  assert (Hch : (match path with [] => match get_config m with Ok _ => Ok (vault_path path m) | Panic => Panic | Exit n => Exit n end | _ => Ok (vault_path path m) end) = Ok vault).
  { rewrite Hvault, vault_in_use_path. destruct path; [rewrite Hcfg|]; reflexivity. }
  rewrite Hch. unfold bind. rewrite enter_eq. cbn [a_world a_vault a_conf]. rewrite Hd, Hval, Hp.
  assert (Hs : screen (after_ask (add_event (EOut (b "Password:" ++ newline)) w')) = screen w' ++ [b "Password:" ++ newline]).
  { rewrite <- screen_event. unfold after_ask, ask_password. cbn [w_pass add_event]. destruct (w_pass w'); reflexivity. }
  destruct (unlock C U tz O (w_disk w) vault t s1) as [[s2 [e|]]| |n].
  - right. destruct Hu as (h & E & _ & Ch & _ & _ & -> & Sh).
    destruct (press C U tz Y dir center O KEnter g1 h R1 HO ltac:(discriminate) F1) as (g' & E' & R' & Rs & _); [rewrite C1; exact E|].
    rewrite E' in Hg. unfold ret in Hg. assert (g = g') by congruence. subst g'. cbn [fst snd a_world].
    split; [rewrite (rs_cur _ _ Rs); exact Ch|]. split; [rewrite (resized_shown C U tz dir center _ _ _ Rs); exact Sh|]. split; [reflexivity|].
    rewrite screen_event, Hs, <- app_assoc. reflexivity.
  - left. destruct Hu as (h & E & _ & Ch & _).
    destruct (press C U tz Y dir center O KEnter g1 h R1 HO ltac:(discriminate) F1) as (g' & E' & R' & Rs & _); [rewrite C1; exact E|].
    rewrite E' in Hg. unfold ret in Hg. assert (g = g') by congruence. subst g'.
    rewrite finish_list. cbn [wanted fst snd]. split; [rewrite (rs_cur _ _ Rs); exact Ch|reflexivity].
  - exfalso. destruct Hu as (h & E). unfold gui_step, check, bind, handle, get, bind in Hg. change (ui_cur (g_ui g1)) with (current g1) in Hg. rewrite C1 in Hg. cbn [on_key] in Hg. rewrite E in Hg. congruence.
  - exfalso. destruct Hu as (h & E). unfold gui_step, check, bind, handle, get, bind in Hg. change (ui_cur (g_ui g1)) with (current g1) in Hg. rewrite C1 in Hg. cbn [on_key] in Hg. rewrite E in Hg. congruence.
Qed.
Print Assumptions C76_gui_trims_refuted.

(** Partial: for passwords that do not start or end with white space.  The same vault, with settings that exist
    and have notifications off: the GUI opens the menu exactly when the command lists the items, and shows the
    error exactly when the command refuses. *)
Theorem C76_same_passwords_partial : forall C U tz Y T render dir center path W H O O' p w w' m cfg g,
  oracles_ok O -> oracles_ok O' ->
  load_config Y (w_disk w) dir = Ok m -> is_available m = true -> get_config m = Ok cfg -> cfg_notify cfg = false ->
  w_disk w' = w_disk w -> typed_pass w' = p -> trimmed p p -> (6 <= W)%Z -> (10 <= H)%Z ->
  gui_process C U tz Y dir center path W H [(O', Typed p); (O, Press KEnter)] w = (g, Ok true) ->
  let (w1, r) := process C U tz O Y T render dir (CmdList path [] [] false) w' in
  (current g = VMenu /\ r = Ok tt) \/
  (current g = VError /\ shown g VError = Some (b "invalid password") /\ r = Exit 1 /\
   screen w1 = screen w' ++ [b "Password:" ++ newline; b "invalid password" ++ newline]).
Proof.
  intros C U tz Y T render dir center path W H O O' p w w' m cfg g HO HO' Hl Hav Hcfg Hn Hd Hp Ht HW HH Hg.
  exact (C76_gui_trims_refuted C U tz Y T render dir center path W H O O' p p w w' m cfg g HO HO' Hl Hav Hcfg Hn Hd Hp Ht HW HH Hg).
Qed.
Print Assumptions C76_same_passwords_partial.

Example C76_example :
  let w := vault_world (b "/v") [] in
  let gui p := demo_gui w [Typed p; Press KEnter] in
  let cli p := demo_process (b "/c") (CmdList [] [] [] false) (vault_world (b "/v") [p]) in
  (exists m cfg, load_config toy_yaml (w_disk w) (b "/c") = Ok m /\ is_available m = true /\ get_config m = Ok cfg /\ cfg_notify cfg = false) /\
  w_disk (vault_world (b "/v") [b "freddy"]) = w_disk w /\ trimmed (b "freddy") (b "freddy") /\ trimmed (b "wrong") (b "wrong") /\
  snd (gui (b "freddy")) = Ok true /\ current (fst (gui (b "freddy"))) = VMenu /\ snd (cli (b "freddy")) = Ok tt /\
  snd (gui (b "wrong")) = Ok true /\ current (fst (gui (b "wrong"))) = VError /\ snd (cli (b "wrong")) = Exit 1.
Proof.
  split; [eexists; eexists; split; [vm_compute; reflexivity|]; split; [vm_compute; reflexivity|]; split; [vm_compute; reflexivity|vm_compute; reflexivity]|].
  split; [reflexivity|]. split; [apply trimmed_iff; vm_compute; reflexivity|]. split; [apply trimmed_iff; vm_compute; reflexivity|].
  set (x := demo_gui (vault_world (b "/v") []) [Typed (b "freddy"); Press KEnter]). set (y := demo_gui (vault_world (b "/v") []) [Typed (b "wrong"); Press KEnter]).
  assert (E : (snd x, current (fst x), (snd y, current (fst y))) = (Ok true, VMenu, (Ok true, VError))) by (vm_compute; reflexivity).
  apply pair_eq in E. destruct E as [E E']. apply pair_eq in E. destruct E as [E1 E2]. apply pair_eq in E'. destruct E' as [E3 E4].
  split; [exact E1|]. split; [exact E2|]. split; [vm_compute; reflexivity|]. split; [exact E3|]. split; [exact E4|]. vm_compute; reflexivity.
Qed.

(** Two texts that the GUI does not tell apart and the command does. *)
Example C76_trims_example : trimmed (b " freddy ") (b "freddy") /\ snd (demo_process (b "/c") (CmdList [] [] [] false) (vault_world (b "/v") [b "freddy"])) = Ok tt /\
  snd (demo_process (b "/c") (CmdList [] [] [] false) (vault_world (b "/v") [b " freddy "])) = Exit 1 /\
  snd (demo_gui (vault_world (b "/v") []) [Typed (b " freddy "); Press KEnter]) = Ok true.
Proof.
  split; [apply trimmed_iff; vm_compute; reflexivity|]. split; [vm_compute; reflexivity|]. split; vm_compute; reflexivity.
Qed.

(** Refuted: with a space behind the password the GUI opens the vault and the command does not. *)
Theorem C76_same_passwords_refuted : exists C U tz Y T render dir center O w w' p,
  oracles_ok O /\ w_disk w' = w_disk w /\ typed_pass w' = p /\
  (let (g, r) := gui_process C U tz Y dir center [] 80 24 [(O, Typed p); (O, Press KEnter)] w in r = Ok true /\ current g = VMenu) /\
  (let (w1, r) := process C U tz O Y T render dir (CmdList [] [] [] false) w' in r = Exit 1 /\ exists t, screen w1 = t ++ [b "invalid password" ++ newline]).
Proof.
  exists toy_crypto, latin1, utc, toy_yaml, demo_tar, (fun rows => concat (concat rows)), (b "/c"), (fun t _ => t), forwards, (vault_world (b "/v") []), (vault_world (b "/v") [b "freddy "]), (b "freddy ").
  split; [exact forwards_ok|]. split; [reflexivity|]. split; [reflexivity|]. split; [vm_compute; split; reflexivity|].
  match goal with |- let (w1, r) := ?x in _ => assert (E : (snd x, screen (fst x)) = (Exit 1, [b "Password:" ++ newline; b "invalid password" ++ newline])) by (vm_compute; reflexivity);
    destruct x as [w1 r] end.
  apply pair_eq in E. destruct E as [E1 E2]. split; [exact E1|]. exists [b "Password:" ++ newline]. exact E2.
Qed.
Print Assumptions C76_same_passwords_refuted.

(** ** C61, for the GUI *)

Lemma pair_of {A B} (p : A * B) y : snd p = y -> p = (fst p, y).
Proof. destruct p. cbn. now intros ->. Qed.

(** Refuted: with notifications off the GUI asks the server for releases. *)
Theorem C61_notifications_off_refuted : exists C U tz Y dir center g w m cfg O,
  load_config Y (w_disk w) dir = Ok m /\ get_config m = Ok cfg /\ cfg_notify cfg = false /\ oracles_ok O /\ w_trace w = [] /\
  gui_process C U tz Y dir center [] 80 24 [(O, Checked)] w = (g, Ok true) /\ In (EGet github_releases) (w_trace (a_world (g_app g))).
Proof.
  set (p := gui_process toy_crypto latin1 utc toy_yaml (b "/c") (fun t _ => t) [] 80 24 [(forwards, Checked)] (vault_world (b "/v") [])).
  exists toy_crypto, latin1, utc, toy_yaml, (b "/c"), (fun t _ => t), (fst p), (vault_world (b "/v") []).
  eexists. eexists. exists forwards. split; [vm_compute; reflexivity|]. split; [vm_compute; reflexivity|]. split; [vm_compute; reflexivity|]. split; [exact forwards_ok|].
  split; [reflexivity|].
  assert (E : (snd p, existsb (fun e => match e with EGet u => bytes_eqb u github_releases | _ => false end) (w_trace (a_world (g_app (fst p))))) = (Ok true, true)) by (vm_compute; reflexivity).
  apply pair_eq in E. destruct E as [E1 E2]. split; [exact (pair_of p _ E1)|].
  apply existsb_exists in E2. destruct E2 as (e & Hin & He). destruct e as [| |u| |]; try discriminate He. apply bytes_eqb_eq in He. rewrite <- He. exact Hin.
Qed.
Print Assumptions C61_notifications_off_refuted.
