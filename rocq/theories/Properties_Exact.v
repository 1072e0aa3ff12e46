(** Refutations for every case, where other files show one: C61, C69, C70, C85, C86, C96. *)
From Verif Require Import Base Utf8 GoStrings Json Civil Crypto Path Fs FsProof Domain Spec_Domain Repos Session SessionProof
  World WorldProof Config Updater Cli CliProof CliEvents Args Spec_Args ArgsProof Toy ToyYaml Gui Spec_Gui GuiProof GuiRun GuiCursor GuiWorld.
From Verif Require Import Properties_Vault Properties_Layout Properties_Session Properties_Update Properties_Check Properties_Cli Properties_Cli2 Properties_Show Properties_End
  Properties_Gui Properties_Gui2 Properties_Gui3 Properties_Gui4 Properties_TopLine Properties_Start Properties_Args Properties_Config.

Local Open Scope st_scope.

(** ** C61 *)

Lemma check_asks m dir w x : snd (facade_check m true dir w) = Ok x -> happened w (fst (facade_check m true dir w)) (EGet github_releases).
Proof.
  unfold facade_check, bind at 1 2, lift. destruct (get_config m) as [c| |n]; try discriminate. unfold check_for_update.
  set (k := fun r : eres (option update_info) => match r with Val None => _ | Val (Some _) => _ | Err _ => _ end).
  assert (E0 : (should <- (ret true : io bool) ;; (if negb should then ret (Err ErrNoUpdate) else bind fetch_info k)) w = bind fetch_info k w) by reflexivity.
  rewrite E0. clear E0.
  assert (F : exists w1, fst (fetch_info w) = w1 /\ w_trace w1 = EGet github_releases :: w_trace w).
  { unfold fetch_info, bind, http_get. assert (E : exists c u, github_releases = c :: u) by (eexists; eexists; reflexivity). destruct E as (c0 & u & ->).
    destruct (w_net w) as [|[|body [|]] rest]; eexists; (split; [reflexivity|reflexivity]). }
  destruct F as (w1 & F1 & F2). unfold bind. destruct (fetch_info w) as [w1' [r| |n]]; cbn [fst] in F1; subst w1'; try discriminate.
  intros _. destruct (timestamp_events dir w1) as (w2 & t & E & Et & _).
  assert (S : forall y : eres update_info, happened w (fst ((check_timestamp dir ;;; ret y) w1)) (EGet github_releases)).
  { intros y. unfold bind. rewrite E. cbn [fst ret]. exists (t ++ [EGet github_releases]). rewrite Et, F2, <- app_assoc. split; [reflexivity|]. apply in_or_app. right. now left. }
  destruct r as [[info|]|e]; unfold k; try apply S. exists [EGet github_releases]. split; [exact F2|now left].
Qed.

Lemma play_asks C U tz dir center es : forall g g', there g -> g_checking g = true -> play C U tz dir center es g = (g', Ok true) ->
  In Checked (map snd es) -> happened (gworld g) (gworld g') (EGet github_releases).
Proof.
  induction es as [|[Or i] es IH]; intros g g' Ht Hc E Hin; [destruct Hin|]. cbn [play] in E.
  apply bind_inv in E. destruct E as (g1 & more & E1 & E2). destruct more; [|discriminate E2].
  destruct (step_world C U tz Or dir center i g Ht) as (A & B & D & F). rewrite E1 in A, B, D, F. cbn [fst snd] in *. specialize (F true eq_refl).
  assert (M := play_emits (fun _ => True) C U tz dir center es (fun _ => Logic.I) Logic.I g1 D). rewrite E2 in M. cbn [fst] in M. destruct M as (t & Et & _).
  assert (Hi : i = Checked \/ i <> Checked /\ In Checked (map snd es)).
  { cbn [map snd] in Hin. destruct i; destruct Hin as [Hin|Hin]; try discriminate Hin; try (now left); right; (split; [discriminate|exact Hin]). }
  destruct Hi as [->|[Hi Hin2]].
  - unfold next_world in A. rewrite Hc in A.
    assert (X : exists x, snd (facade_check (gconf g) true dir (gworld g)) = Ok x).
    { assert (E3 := E1). unfold gui_step in E3. apply bind_inv in E3. destruct E3 as (h & y & E3 & _). unfold check in E3. apply bind_inv in E3. destruct E3 as (h2 & z & E3 & _).
      unfold handle in E3. unfold bind at 1, get at 1 in E3. rewrite Hc in E3. apply bind_inv in E3. destruct E3 as (h3 & u & E3 & _).
      unfold version_update in E3. apply bind_inv in E3. destruct E3 as (h4 & r & E3 & _). unfold on_app, bind, the_conf, on_world in E3.
      change (a_conf (g_app g)) with (gconf g) in E3. change (a_world (g_app g)) with (gworld g) in E3.
      destruct (facade_check (gconf g) true dir (gworld g)) as [w2 [x| |n]]; [now exists x|discriminate E3|discriminate E3]. }
    destruct X as [x X]. apply check_asks in X. rewrite <- A in X. destruct X as (t0 & E0 & I0). exists (t ++ t0).
    rewrite Et, E0, app_assoc. split; [reflexivity|]. apply in_or_app. now right.
  - assert (Hc1 : g_checking g1 = true) by (rewrite F; destruct i; try exact Hc; congruence).
    assert (IH1 := IH g1 g' D Hc1 E2 Hin2). destruct IH1 as (t0 & E0 & I0).
    assert (T : w_trace (gworld g1) = w_trace (gworld g)) by (rewrite A; destruct i; try reflexivity; congruence).
    exists t0. rewrite E0, T. auto.
Qed.

(** Notifications on or off: as soon as the check of the GUI is over, it has asked the server. *)
Theorem C61_gui_asks_anyway_refuted : forall C U tz Y dir center path w h es world m cfg g,
  load_config Y (w_disk world) dir = Ok m -> is_available m = true -> get_config m = Ok cfg -> cfg_notify cfg = false ->
  gui_process C U tz Y dir center path w h es world = (g, Ok true) -> In Checked (map snd es) ->
  happened world (a_world (g_app g)) (EGet (b "https://api.github.com/repos/mashmb/1pass/releases")).
Proof.
  intros C U tz Y dir center path w h es world m cfg g Hm Ha _ _ E Hin.
  assert (G := gui_world C U tz Y dir center path w h es world). rewrite Hm in G. rewrite prelude_available in G by exact Ha.
  destruct (pick_vault path (MkApp world m init)) as [a [v| |n]] eqn:Ep.
  2,3: destruct G as (r & G & Hr); rewrite G in E; injection E as _ ->; now elim (Hr true).
  destruct G as (g0 & r0 & G1 & _ & G2 & G3). destruct r0 as [y| |n]; try (rewrite G3 in E; discriminate E).
  destruct G3 as [G3 G4]. rewrite G4 in E. assert (S := start_top _ _ _ _ _ _ _ G2). unfold top_of in S. apply pair_eq in S. destruct S as [_ S2].
  assert (H := play_asks C U tz dir center es g0 g G3 S2 E Hin). rewrite G1, (pick_net _ _ _ _ Ep) in H. exact H.
Qed.
Print Assumptions C61_gui_asks_anyway_refuted.

(** Such a run: the settings exist and notifications are off. *)
Example C61_refuted_example :
  let p := gui_process toy_crypto latin1 utc toy_yaml (b "/c") (fun t _ => t) [] 80 24 [(forwards, Checked)] (vault_world (b "/v") []) in
  exists m cfg, load_config toy_yaml (w_disk (vault_world (b "/v") [])) (b "/c") = Ok m /\ is_available m = true /\ get_config m = Ok cfg /\ cfg_notify cfg = false /\ p = (fst p, Ok true).
Proof.
  cbv zeta. set (p := gui_process toy_crypto latin1 utc toy_yaml (b "/c") (fun t _ => t) [] 80 24 [(forwards, Checked)] (vault_world (b "/v") [])).
  eexists. eexists. split; [vm_compute; reflexivity|]. split; [vm_compute; reflexivity|]. split; [vm_compute; reflexivity|]. split; [vm_compute; reflexivity|].
  assert (E : snd p = Ok true) by (vm_compute; reflexivity). rewrite <- E. now destruct p.
Qed.

(** ** C69 *)

(** With nothing in the trash, the list of the last entry is empty, whatever that entry is. *)
Theorem C69_last_entry_refuted : forall C U tz Y dir center g e,
  running C U tz Y dir center g -> current g = VItems \/ current g = VDetails -> selected_entry g = Some e ->
  (forall i, held (session g) i -> it_trashed i = false) -> (g_menu_idx g + 1 = Z.of_nat (length (entries g)))%Z ->
  g_rows g = [] /\ shown g VItems = Some [].
Proof.
  intros C U tz Y dir center g e R Hc He Hn Hl. apply running_inv in R. assert (M := gi_mode _ _ _ _ _ R).
  assert (Hr := gi_reach _ _ _ _ _ R).
  assert (H : open_menu center g /\ exists mk, open_list U tz mk g) by (unfold mode in M; destruct Hc as [Hc|Hc]; rewrite Hc in M; split; try tauto; eexists; apply M).
  destruct H as [(U1 & U2 & _) (mk & L1 & (O & HO & L2) & L3 & L4 & _)].
  destruct (selected_menu g e He U1) as (E1 & E2 & E3). rewrite E3 in Hl.
  assert (Er : g_rows g = get_items U O None [] true (session g)).
  { rewrite L2, U2. unfold rows_of. rewrite map_length. destruct (Nat.eqb (length (menu (session g))) 1); [reflexivity|].
    replace (g_menu_idx g =? Z.of_nat (length (menu (session g))) - 1)%Z with true by lia. reflexivity. }
  assert (Q : g_rows g = []).
  { destruct (rows_for_entry C U tz O (session g) Trash Hr HO) as (Q & _). cbn [entry_category entry_trashed] in Q. rewrite <- Er in Q.
    destruct (g_rows g) as [|row rows]; [reflexivity|]. destruct (proj1 (Q row) (or_introl eq_refl)) as (i & Hi & Hb & _). cbn [belongs] in Hb. rewrite (Hn i Hi) in Hb. discriminate. }
  split; [exact Q|]. rewrite L4, Q. reflexivity.
Qed.
Print Assumptions C69_last_entry_refuted.

(** A vault of one login: the list below "Login" is empty. *)
Example C69_refuted_example :
  let g := fst (demo_gui one_item_world (enter_freddy ++ [Press KDown; Press KEnter])) in
  demo_running g /\ current g = VItems /\ selected_entry g = Some (Of (Cat (b "001") (b "Login"))) /\
  (forall i, held (session g) i -> it_trashed i = false) /\ (g_menu_idx g + 1 = Z.of_nat (length (entries g)))%Z.
Proof.
  set (d := demo_gui one_item_world (enter_freddy ++ [Press KDown; Press KEnter])). cbv zeta.
  assert (E : (snd d, current (fst d), selected_entry (fst d), match st_items (session (fst d)) with Some l => forallb (fun i => negb (it_trashed i)) l | None => true end, (g_menu_idx (fst d) + 1 =? Z.of_nat (length (entries (fst d))))%Z)
    = (Ok true, VItems, Some (Of (Cat (b "001") (b "Login"))), true, true)) by (vm_compute; reflexivity).
  apply pair_eq in E. destruct E as [E E5]. apply pair_eq in E. destruct E as [E E4]. apply pair_eq in E. destruct E as [E E3]. apply pair_eq in E. destruct E as [E1 E2].
  split; [exact (demo_runs _ _ E1)|]. split; [exact E2|]. split; [exact E3|]. split; [|lia].
  intros i Hi. unfold held, get_item, find_first in Hi. destruct (st_items (session (fst d))) as [l|]; [|discriminate Hi].
  apply find_some in Hi. destruct Hi as [Hi _]. rewrite forallb_forall in E4. specialize (E4 i Hi). now destruct (it_trashed i).
Qed.

(** ** C70 *)

(** With nothing in the trash, TAB in the list of the last entry always crashes the program (C69_refuted_example is such a state). *)
Theorem C70_tab_crashes_refuted : forall C U tz Y dir center g e O,
  running C U tz Y dir center g -> current g = VItems -> selected_entry g = Some e ->
  (forall i, held (session g) i -> it_trashed i = false) -> (g_menu_idx g + 1 = Z.of_nat (length (entries g)))%Z ->
  snd (gui_step C U tz O dir center (Press KTab) g) = Panic.
Proof.
  intros C U tz Y dir center g e O R Hc He Hn Hl. destruct (C69_last_entry_refuted _ _ _ _ _ _ _ _ R (or_introl Hc) He Hn Hl) as [Hr _].
  unfold gui_step, check. unfold bind at 1. unfold bind at 1. unfold handle, get. unfold bind at 1. change (ui_cur (g_ui g)) with (current g). rewrite Hc. cbn [on_key].
  unfold reveal, pick_item, bind, get. rewrite Hr. destruct (g_row_idx g <? 0)%Z; [reflexivity|]. destruct (Z.to_nat (g_row_idx g)); reflexivity.
Qed.
Print Assumptions C70_tab_crashes_refuted.

(** ** C85 *)

(** Going back from the list always leaves the keys of the list. *)
Theorem C85_keys_after_back_refuted : forall C U tz Y dir center g g' O k,
  running C U tz Y dir center g -> oracles_ok O -> current g = VItems -> k = KBack \/ k = KLeft ->
  gui_step C U tz O dir center (Press k) g = (g', Ok true) ->
  current g' = VMenu /\ shown g' VHelp = Some (tabbed (keys_anywhere ++ keys_in_list)).
Proof.
  intros C U tz Y dir center g g' O k R HO Hc Hk E.
  assert (Hh : shown g VHelp = Some (tabbed (keys_anywhere ++ keys_in_list))).
  { destruct (C85_help_names_keys_partial C U tz Y dir center g R) as [H|[H _]]; [rewrite Hc in H; exact H|congruence]. }
  assert (E' : (handle C U tz O dir center (Press k) ;;? layout center) g = (g', Ok true)).
  { unfold gui_step in E. destruct Hk as [-> | ->]; apply bind_inv in E; destruct E as (h & [|] & E & E2); try (unfold ret in E2; congruence); unfold os_exit, lift in E2; discriminate E2. }
  apply check_inv in E'. destruct E' as (h & E1 & E2). change (on_key C U tz O center (current g) k g = (h, Ok true)) in E1. rewrite Hc in E1.
  assert (Eb : go_back g = (h, Ok true)) by (destruct Hk as [-> | ->]; exact E1).
  assert (S := step_run C U tz dir center O (Press k) g HO (running_inv _ _ _ _ _ _ _ R)). rewrite E in S. destruct S as (_ & g2 & E3 & _ & Rs).
  assert (g2 = h).
  { unfold handle, get in E3. unfold bind at 1 in E3. change (ui_cur (g_ui g)) with (current g) in E3. rewrite Hc in E3. congruence. }
  subst g2. apply back_gone in Eb. destruct Eb as (_ & _ & B1 & B2).
  split; [rewrite <- B1; exact (rs_cur _ _ Rs)|]. change (help_line g' = Some (tabbed (keys_anywhere ++ keys_in_list))). rewrite <- Hh.
  transitivity (help_line h); [|exact B2]. exact (resized_shown C U tz dir center _ _ VHelp Rs).
Qed.
Print Assumptions C85_keys_after_back_refuted.

(** Opening an entry and going back. *)
Example C85_refuted_example :
  let g := fst (demo_gui (vault_world (b "/v") []) (enter_freddy ++ [Press KEnter])) in
  let p := gui_step toy_crypto latin1 utc forwards (b "/c") (fun t _ => t) (Press KBack) g in
  demo_running g /\ current g = VItems /\ p = (fst p, Ok true) /\ shown g VHelp <> shown (fst (demo_gui (vault_world (b "/v") []) enter_freddy)) VHelp.
Proof.
  set (d := demo_gui (vault_world (b "/v") []) (enter_freddy ++ [Press KEnter])). cbv zeta.
  set (p := gui_step toy_crypto latin1 utc forwards (b "/c") (fun t _ => t) (Press KBack) (fst d)).
  assert (E : (snd d, current (fst d), snd p) = (Ok true, VItems, Ok true)) by (vm_compute; reflexivity).
  apply pair_eq in E. destruct E as [E E3]. apply pair_eq in E. destruct E as [E1 E2].
  split; [exact (demo_runs _ _ E1)|]. split; [exact E2|]. split; [rewrite <- E3; now destruct p|]. vm_compute. discriminate.
Qed.

(** ** C86 *)

Lemma reset_exact v v' : (0 <= v_ox v)%Z -> reset_origin v = Some v' -> v_ox v' = (if 0 <? v_oy v then v_ox v else 0)%Z.
Proof.
  intros H. unfold reset_origin, set_origin. repeat match goal with |- context [if ?x then _ else _] => destruct x eqn:?; cbv iota end; intros E; try discriminate E;
    injection E as <-; cbn [v_oy v_ox] in *; bools; try lia; reflexivity.
Qed.

(** Covering an item goes to its first column exactly if its first line or its first column was in sight. *)
Theorem C86_covered_column_refuted : forall C U tz Y dir center g g' O d,
  running C U tz Y dir center g -> oracles_ok O -> current g = VDetails -> view_of g VDetails = Some d ->
  gui_step C U tz O dir center (Press KTab) g = (g', Ok true) ->
  (0 < v_ox d)%Z /\ (0 < v_oy d)%Z <-> ~ from_start g'.
Proof.
  intros C U tz Y dir center g g' O d R HO Hc Hd E. assert (G := running_inv _ _ _ _ _ _ _ R).
  assert (E' : (handle C U tz O dir center (Press KTab) ;;? layout center) g = (g', Ok true)).
  { unfold gui_step in E. apply bind_inv in E; destruct E as (h & [|] & E & E2); try (unfold ret in E2; congruence); unfold os_exit, lift in E2; discriminate E2. }
  apply check_inv in E'. destruct E' as (h & E1 & E2).
  assert (L := held_in _ _ _ _ _ (layout_details center) E2). unfold details_view in L.
  change (on_key C U tz O center (current g) KTab g = (h, Ok true)) in E1. rewrite Hc in E1. cbn [on_key] in E1. unfold cover in E1.
  apply check_inv in E1. destruct E1 as (g2 & E1 & E3).
  assert (Q : GuiCursor.holds details_view (set_current VItems ;;? show_help items_help)) by (held; now apply holds_help). apply (held_in _ _ _ _ _ Q) in E3. unfold details_view in E3.
  destruct (gi_origin _ _ _ _ _ G _ _ Hd) as [O1 O2].
  assert (X : exists d', view_of g2 VDetails = Some d' /\ v_oy d' = 0%Z /\ v_ox d' = (if 0 <? v_oy d then v_ox d else 0)%Z).
  { unfold details_update, bind at 1, get at 1 in E1. apply check_inv in E1. destruct E1 as (g1 & E1 & E4). apply try_inv in E1.
    destruct E1 as (d0 & d1 & D1 & D2 & ->). assert (d0 = d) by congruence. subst d0. assert (D3 := D2). apply (reset_top [] center) in D2; [|exact O2]. destruct D2 as [R1 _].
    apply reset_exact in D3; [|exact O1]. cbn [clear v_ox v_oy] in D3.
    destruct (g_item g) as [i|].
    - unfold on_view in E4. cbn [sv set_ui g_ui put_view ui_views vname_eqb] in E4. injection E4 as <-. eexists. split; [reflexivity|]. split; [exact R1|exact D3].
    - unfold ret in E4. injection E4 as <-. eexists. split; [reflexivity|]. split; [exact R1|exact D3]. }
  destruct X as (d' & X1 & X2 & X3). assert (X4 : view_of g' VDetails = Some d') by congruence.
  split.
  - intros [P1 P2] F. destruct (F _ X4) as [_ F2]. rewrite F2 in X3. destruct (0 <? v_oy d)%Z eqn:?; bools; lia.
  - intros N. assert (Y1 : v_ox d' <> 0%Z) by (intros Z; apply N; intros x Hx; assert (x = d') by congruence; subst x; auto).
    destruct (0 <? v_oy d)%Z eqn:?; bools; lia.
Qed.
Print Assumptions C86_covered_column_refuted.

(** Scrolled right and down. *)
Example C86_refuted_example :
  let g := fst (demo_gui (vault_world (b "/v") []) (enter_freddy ++ [Press KEnter; Press KTab; Press KRight; Press KDown])) in
  let p := gui_step toy_crypto latin1 utc forwards (b "/c") (fun t _ => t) (Press KTab) g in
  demo_running g /\ current g = VDetails /\ option_map v_ox (view_of g VDetails) = Some 1%Z /\ option_map v_oy (view_of g VDetails) = Some 1%Z /\ p = (fst p, Ok true).
Proof.
  set (d := demo_gui (vault_world (b "/v") []) (enter_freddy ++ [Press KEnter; Press KTab; Press KRight; Press KDown])). cbv zeta.
  set (p := gui_step toy_crypto latin1 utc forwards (b "/c") (fun t _ => t) (Press KTab) (fst d)).
  assert (E : (snd d, current (fst d), option_map v_ox (view_of (fst d) VDetails), option_map v_oy (view_of (fst d) VDetails), snd p) = (Ok true, VDetails, Some 1%Z, Some 1%Z, Ok true)) by (vm_compute; reflexivity).
  apply pair_eq in E. destruct E as [E E5]. apply pair_eq in E. destruct E as [E E4]. apply pair_eq in E. destruct E as [E E3]. apply pair_eq in E. destruct E as [E1 E2].
  split; [exact (demo_runs _ _ E1)|]. split; [exact E2|]. split; [exact E3|]. split; [exact E4|rewrite <- E5; now destruct p].
Qed.

(** ** C96 *)

(** Command lines no command understands: what the manual of the commands does not allow. *)
Inductive not_understood : list bytes -> Prop :=
| list_misused rest : (forall l, ~ line l [] rest) -> not_understood (b "list" :: rest)
| item_misused n rest : n = b "overview" \/ n = b "details" ->
    (forall l uid, line l [uid] rest -> ~ Forall flags_item l) -> not_understood (n :: rest)
| other_misused n rest : In n [b "update"; b "configure"; b "categories"; b "version"] ->
    (forall l args, line l args rest -> ~ Forall flags_none l) -> not_understood (n :: rest)
| no_command n rest : n <> [] -> hd_error n <> Some "-"%char ->
    ~ In n [b "update"; b "configure"; b "categories"; b "list"; b "overview"; b "details"; b "version"; b "help"; b "__complete"; b "__completeNoDesc"] -> not_understood (n :: rest).

(** None of them is reported by the exit status: wherever the settings can be read the program ends as after success. *)
Theorem C96_status_of_success_refuted : forall s args w m,
  s_home s <> [] -> load_config (s_Y s) (w_disk w) (settings_dir (s_home s)) = Ok m -> not_understood args ->
  exists text, run s args w = Ended (add_event (EOut text) w) (Ok tt).
Proof.
  intros s args w m Hh Hm H.
  assert (R : read_args args = Help \/ read_args args = Wrong).
  { destruct H as [rest H|n rest Hn H|n rest Hn H|n rest H1 H2 H3].
    - apply list_wrong. intros l L. now destruct (H l).
    - apply item_wrong; [|exact Hn]. intros l uid L F. now destruct (H l uid L).
    - apply others_wrong; [|exact Hn]. intros l a L F. now destruct (H l a L).
    - apply unknown_wrong; [exact H1|exact H2|]. intros I. apply H3. cbn [In] in *. tauto. }
  rewrite run_eq by exact Hh. rewrite Hm. destruct R as [-> | ->]; eexists; reflexivity.
Qed.
Print Assumptions C96_status_of_success_refuted.

(** [1pass lst] and [1pass list foo], with settings. *)
Example C96_refuted_example : not_understood [b "lst"] /\ not_understood [b "list"; b "foo"] /\
  s_home (demo_setup (fun _ => [])) <> [] /\ exists m, load_config toy_yaml (w_disk conf_world) (settings_dir (b "/home/ann")) = Ok m.
Proof.
  split; [|split; [|split; [discriminate|eexists; vm_compute; reflexivity]]].
  - apply no_command; [discriminate|discriminate|]. cbn [In]. intuition discriminate.
  - apply list_misused. intros l L. destruct (C94_one_meaning _ _ _ _ _ demo_line_1 L). discriminate.
Qed.
