(** The line at the top of the GUI (C101). *)
From Verif Require Import Base Utf8 GoStrings GoStringsProof Json Civil Crypto Path Fs Domain DomainProof Repos Session SessionProof
  World WorldProof Config Updater Cli CliProof CliEvents Spec_Vault Spec_Writer Spec_Domain Spec_Release VaultProof Toy ToyYaml Gui Spec_Gui GuiProof GuiRun GuiCursor GuiWorld.
From Verif Require Import Properties_Session Properties_Cli Properties_Show Properties_End Properties_Update Properties_Gui Properties_Gui3 Properties_Release.

(** ** Specification *)

(** The first line of the screen. *)
Definition top_line (g : gui) (message : bytes) : Prop := shown g VVersion = Some (b "1Pass v1.3.1 " ++ message).

(** ** Proof *)

Definition text_of (r : eres update_info) : bytes :=
  match r with
  | Val info => b "(new version is available: v" ++ ui_version info ++ b " - run '1pass update' to upgrade)"
  | Err ErrNoUpdate => b "(up to date)"
  | Err _ => b "(update check failed - run '1pass update' for more info)"
  end.
Definition verdict (net : list net_reply) : bytes :=
  match net with
  | NetBody body true :: _ =>
      match read_releases body with
      | Ok (Val (Some info)) => if ui_newer info then text_of (Val info) else text_of (Err ErrNoUpdate)
      | Ok (Val None) => text_of (Err ErrNoUpdate)
      | _ => text_of (Err io_error)
      end
  | _ => text_of (Err io_error)
  end.

Lemma facade_verdict m dir w r : snd (facade_check m true dir w) = Ok r -> text_of r = verdict (w_net w).
Proof.
  unfold facade_check, check_for_update, fetch_info. unfold bind at 1, lift. destruct (get_config m) as [c| |]; try discriminate.
  unfold bind at 1, ret at 1. cbn [negb]. unfold bind at 1 2, http_get, verdict.
  assert (E : exists c u, github_releases = c :: u) by (eexists; eexists; reflexivity). destruct E as (c0 & u & ->).
  assert (R : forall (m : io unit) x w, snd (bind m (fun _ => ret (x : eres update_info)) w) = Ok r -> r = x).
  { clear. intros m x w. unfold bind, ret. destruct (m w) as [w1 [[]| |]]; cbn; congruence. }
  destruct (w_net w) as [|[|body [|]] rest]; try (intros [= <-]; reflexivity).
  unfold lift. destruct (read_releases body) as [[[info|]|e]| |] eqn:Er; try discriminate.
  - intros H. apply R in H. subst r. now destruct (ui_newer info).
  - intros H. apply R in H. now subst r.
  - intros [= <-]. assert (e = io_error) as ->; [|reflexivity]. clear -Er. unfold read_releases in Er.
    destruct (unmarshal body) as [[[| | | |l|]|] [|]]; try congruence.
    destruct l as [|[] l]; try discriminate Er; cbn [as_obj rbind] in Er. unfold rbind in Er.
    repeat match type of Er with match ?x with _ => _ end = _ => destruct x; try discriminate Er end.
Qed.

Section Top.
Variable C : crypto.
Variable U : unicode.
Variable tz : Z -> Z.
Variable dir : bytes.
Variable center : bytes -> Z -> bytes.
Variable net : list net_reply.

Definition top_of (g : gui) : option bytes * bool := (shown g VVersion, g_checking g).

Lemma top_key O n k : holds top_of (on_key C U tz O center n k).
Proof.
  assert (Hh : forall x, holds top_of (show_help x)) by (intros x; now apply holds_help).
  assert (Hd : forall m, holds top_of (details_update tz m)) by (intros m; unfold details_update; held).
  assert (Hp : holds top_of pick_item) by (unfold pick_item; held).
  assert (Ho : holds top_of (show_overview tz)) by (unfold show_overview; held; auto).
  assert (Hu : holds top_of (items_update tz)) by (unfold items_update; held; auto).
  assert (Hl : holds top_of (items_layout tz)) by (unfold items_layout, details_layout; held; auto).
  assert (He : holds top_of (open_entry U tz O)) by (unfold open_entry; held; auto).
  assert (Hb : holds top_of go_back) by (unfold go_back; held).
  assert (Hm : holds top_of (menu_update center)) by (unfold menu_update, prompt_layout; held).
  assert (Hk : holds top_of (menu_lock center)) by (unfold menu_lock; held; auto).
  destruct n, k; cbn [on_key]; try assumption; try (held; fail).
  all: try (unfold items_lock; held; assumption).
  - unfold menu_up. held.
  - unfold menu_down. held.
  - unfold row_up. held; auto.
  - unfold row_down. held; auto.
  - unfold reveal. held; auto.
  - unfold cover. held; auto.
  - unfold enter_password, error_layout. held; auto.
  - unfold close_error. held; auto.
Qed.

Definition is_check (i : input) : bool := match i with Checked => true | _ => false end.
Definition top_at (c : bool) (g : gui) : Prop :=
  there g /\ g_checking g = negb c /\ top_line g (if c then verdict net else []) /\ (c = false -> w_net (gworld g) = net).

Lemma layout_top g g' : there g -> layout center g = (g', Ok true) -> top_of g' = top_of g.
Proof.
  intros H E. apply check_inv in E. destruct E as (g1 & E1 & E). apply check_inv in E. destruct E as (g2 & E2 & E3).
  assert (X1 : top_of g1 = top_of g).
  { unfold version_layout, bind, get, set_view in E1. destruct (_ || _)%bool; [discriminate|]. unfold there, view_of in H.
    destruct (ui_views (g_ui g) VVersion) as [v|] eqn:Ev; [|congruence]. unfold ret in E1. injection E1 as <-.
    unfold top_of, shown, view_of. cbn [set_ui g_ui g_checking put_view ui_views]. change (vname_eqb VVersion VVersion) with true. cbv iota. now rewrite Ev. }
  rewrite <- X1. assert (X2 : holds top_of help_layout) by (unfold help_layout, help_update; held). rewrite <- (held_in _ _ _ _ _ X2 E2).
  assert (X3 : holds top_of (menu_layout center)).
  { unfold menu_layout, menu_update, prompt_layout. held. apply holds_help; reflexivity. }
  exact (held_in _ _ _ _ _ X3 E3).
Qed.

Lemma step_top O i c g g' : i <> Press KQuit -> top_at c g -> gui_step C U tz O dir center i g = (g', Ok true) -> top_at (c || is_check i) g'.
Proof.
  intros Hq (T1 & T2 & T3 & T4) E.
  assert (W := step_world C U tz O dir center i g T1). cbv zeta in W. rewrite E in W. cbn [fst snd] in W. destruct W as (W1 & W2 & W3 & W4). specialize (W4 _ eq_refl).
  assert (G : gui_step C U tz O dir center i g = (ok <- (handle C U tz O dir center i ;;? layout center) ;; if ok then ret true else os_exit 1)%st g) by (destruct i as [[]| | | |]; first [reflexivity|congruence]).
  rewrite G in E. apply bind_inv in E. destruct E as (g2 & y & E & E'). destruct y; [|discriminate E']. unfold ret in E'. injection E' as ->.
  apply check_inv in E. destruct E as (g1 & E1 & E2).
  assert (H1 : there g1). { assert (X := handle_world C U tz O dir center i g T1). cbv zeta in X. rewrite E1 in X. cbn [fst] in X. tauto. }
  assert (L := layout_top g1 g' H1 E2).
  assert (S : is_check i = false \/ c = true -> top_of g1 = top_of g).
  { intros Hc. destruct i as [k|t|w h| |d]; cbn [handle] in E1.
    - assert (X : holds top_of (handle C U tz O dir center (Press k))) by (unfold handle; held; apply top_key). exact (held_in _ _ _ _ _ X E1).
    - assert (X : holds top_of (handle C U tz O dir center (Typed t))) by (unfold handle; held). exact (held_in _ _ _ _ _ X E1).
    - unfold bind, put, ret in E1. injection E1 as <-. reflexivity.
    - destruct Hc as [Hc| ->]; [discriminate Hc|]. unfold bind, get in E1. rewrite T2 in E1. cbn [negb] in E1. unfold ret in E1. now injection E1 as <-.
    - unfold bind, put, ret in E1. injection E1 as <-. reflexivity. }
  assert (D : is_check i = false \/ c = true \/ (i = Checked /\ c = false)) by (destruct i, c; cbn; auto).
  destruct D as [Hc|[->|[-> ->]]].
  - rewrite Hc, Bool.orb_false_r. assert (X : top_of g' = top_of g) by (rewrite L; apply S; now left). unfold top_of in X. apply pair_eq in X. destruct X as [X1 X2].
    split; [exact W3|]. split; [congruence|]. split; [unfold top_line; now rewrite X1|]. intros ->. rewrite W1. destruct i; try discriminate Hc; cbn [next_world]; auto.
  - assert (X : top_of g' = top_of g) by (rewrite L; apply S; now right). unfold top_of in X. apply pair_eq in X. destruct X as [X1 X2].
    split; [exact W3|]. split; [cbn [orb]; congruence|]. split; [unfold top_line; now rewrite X1|]. discriminate.
  - cbn [orb is_check]. split; [exact W3|]. split; [exact W4|]. split; [|discriminate].
    unfold top_line. assert (X : shown g' VVersion = shown g1 VVersion) by (unfold top_of in L; congruence). rewrite X. clear X L.
    cbn [handle] in E1. apply bind_inv in E1. destruct E1 as (ga & y & E1 & E3). unfold get in E1. injection E1 as <- <-. rewrite T2 in E3. cbn [negb] in E3.
    apply bind_inv in E3. destruct E3 as (gb & [] & E3 & E4). unfold ret in E4. injection E4 as <-.
    unfold version_update in E3. apply bind_inv in E3. destruct E3 as (gc & r & E3 & E4).
    unfold on_app, bind, the_conf, on_world in E3. change (a_world (g_app g)) with (gworld g) in E3. change (a_conf (g_app g)) with (gconf g) in E3.
    assert (F := facade_verdict (gconf g) dir (gworld g)). destruct (facade_check (gconf g) true dir (gworld g)) as [w1 r1]. injection E3 as <- ->. cbn [snd] in F. specialize (F r eq_refl).
    apply bind_inv in E4. destruct E4 as (gd & y & E4 & E5). unfold put in E5. injection E5 as <-.
    unfold on_view in E4. unfold top_line, shown, view_of in T3. change (g_ui (set_app (MkApp w1 (gconf g) (a_vault (g_app g))) g)) with (g_ui g) in E4.
    destruct (ui_views (g_ui g) VVersion) as [v|]; [|discriminate T3]. cbn [option_map] in T3. rewrite app_nil_r in T3. injection T3 as T3.
    injection E4 as <- _. unfold shown, view_of. cbn [set_checking set_ui set_app g_ui put_view ui_views]. change (vname_eqb VVersion VVersion) with true. cbv iota. cbn [option_map write v_text].
    rewrite T3. rewrite <- (T4 eq_refl), <- F. reflexivity.
Qed.

Lemma play_top es : forall c g g', top_at c g -> play C U tz dir center es g = (g', Ok true) -> top_at (c || existsb is_check (map snd es)) g'.
Proof.
  induction es as [|[O i] es IH]; intros c g g' H E; cbn [play] in E.
  - unfold ret in E. injection E as <-. cbn. now rewrite Bool.orb_false_r.
  - apply bind_inv in E. destruct E as (g1 & y & E1 & E2). destruct y; [|discriminate E2].
    assert (Hq : i <> Press KQuit) by (intros ->; discriminate E1). cbn [map existsb snd]. rewrite Bool.orb_assoc. apply (IH _ g1); [|exact E2]. now apply (step_top O i c g).
Qed.
End Top.

Lemma start_top center path w h a g y : start_gui center path w h a = (g, Ok y) -> top_of g = (Some (b "1Pass v1.3.1 "), true).
Proof.
  unfold start_gui. destruct (pick_vault path a) as [a' [v| |n]]; try discriminate. intros E.
  apply bind_inv in E. destruct E as (g2 & x & E & E'). destruct x; [|discriminate E']. unfold ret in E'. assert (g2 = g) by congruence. subst g2. clear E'.
  apply check_inv in E. destruct E as (g1 & E1 & E). apply check_inv in E. destruct E as (g2 & E2 & E3).
  assert (X2 : holds top_of help_layout) by (unfold help_layout, help_update; held).
  assert (X3 : holds top_of (menu_layout center)) by (unfold menu_layout, menu_update, prompt_layout; held; apply holds_help; reflexivity).
  rewrite (held_in _ _ _ _ _ X3 E3), (held_in _ _ _ _ _ X2 E2). clear -E1.
  unfold version_layout, bind, get, set_view, blank_gui in E1. cbn [g_ui ui_w ui_views] in E1. destruct (_ || _)%bool; [discriminate|].
  unfold check, bind, on_view, put, ret in E1. cbn [set_ui g_ui put_view ui_views] in E1. change (vname_eqb VVersion VVersion) with true in E1. cbv iota in E1. injection E1 as <-. reflexivity.
Qed.

Lemma pick_net path a a' v : pick_vault path a = (a', Ok v) -> a_world a' = a_world a.
Proof.
  unfold pick_vault, bind. intros E.
  assert (P : exists a1 r1, match path with [] => (c <- config_now ;; ret (cfg_vault c))%st | _ => ret path end a = (a1, r1) /\ a1 = a).
  { destruct path; [|eexists; eexists; split; reflexivity]. unfold config_now, bind, the_conf, lift, ret. destruct (get_config (a_conf a)); eexists; eexists; split; reflexivity. }
  destruct P as (a1 & r1 & P & ->). unfold bind in P. rewrite P in E. destruct r1 as [x| |n]; try discriminate.
  unfold on_vault in E. destruct (validate (w_disk (a_world a)) x (a_vault a)) as [[s [e|]]| |n]; try discriminate.
  unfold ret in E. injection E as <- _. reflexivity.
Qed.

(** ** C101 *)

(** As long as the GUI runs, whatever keys are pressed, its first line names the version of the program.  Nothing
    follows until the check for updates has ended; then the line says what the server answered: the newest release
    if it is newer, or that there is none, or that the check failed.  (The settings exist.) *)
Theorem C101_top_line : forall C U tz Y dir center path w h es world g m,
  load_config Y (w_disk world) dir = Ok m -> is_available m = true ->
  gui_process C U tz Y dir center path w h es world = (g, Ok true) ->
  (~ In Checked (map snd es) -> top_line g []) /\
  (In Checked (map snd es) ->
    (forall body o, answer world 0 body -> offers body o -> newer (of_version o) ->
       top_line g (b "(new version is available: v" ++ of_version o ++ b " - run '1pass update' to upgrade)")) /\
    (forall body, answer world 0 body -> (no_release body \/ exists o, offers body o /\ ~ newer (of_version o)) ->
       top_line g (b "(up to date)")) /\
    ((forall body, answer world 0 body -> ~ no_release body /\ ~ exists o, offers body o) ->
       top_line g (b "(update check failed - run '1pass update' for more info)"))).
Proof.
  intros C U tz Y dir center path w h es world g m Hm Ha E.
  assert (T : top_at (w_net world) (existsb is_check (map snd es)) g).
  { assert (G := gui_world C U tz Y dir center path w h es world). rewrite Hm in G. rewrite prelude_available in G by exact Ha.
    destruct (pick_vault path (MkApp world m init)) as [a [v| |n]] eqn:Ep.
    2,3: destruct G as (r & G & Hr); rewrite G in E; injection E as _ ->; now elim (Hr true).
    destruct G as (g0 & r0 & G1 & _ & G2 & G3). destruct r0 as [y| |n]; try (rewrite G3 in E; discriminate E).
    destruct G3 as [G3 G4]. rewrite G4 in E. assert (S := start_top _ _ _ _ _ _ _ G2). unfold top_of in S. apply pair_eq in S. destruct S as [S1 S2].
    apply (play_top C U tz dir center (w_net world) es false g0 g); [|exact E].
    split; [exact G3|]. split; [exact S2|]. split; [unfold top_line; now rewrite app_nil_r|]. intros _. rewrite G1, (pick_net _ _ _ _ Ep). reflexivity. }
  destruct T as (_ & _ & T & _).
  assert (D : existsb is_check (map snd es) = true <-> In Checked (map snd es)).
  { rewrite existsb_exists. split; [intros (x & H1 & H2); destruct x; try discriminate; exact H1|intros H; exists Checked; auto]. }
  split; [intros H|intros H]; [destruct (existsb is_check (map snd es)) eqn:Ex; [elim H; now apply D|exact T]|].
  apply D in H. rewrite H in T. clear D H. unfold verdict in T. unfold answer. split; [|split].
  - intros body o Hb Ho Hn. destruct (w_net world) as [|x rest]; [discriminate Hb|]. injection Hb as ->. rewrite (offers_read _ _ Ho) in T.
    apply info_newer in Hn. rewrite Hn in T. exact T.
  - intros body Hb Hn. destruct (w_net world) as [|x rest]; [discriminate Hb|]. injection Hb as ->. destruct Hn as [Hn|(o & Ho & Hn)].
    + apply read_none in Hn. rewrite Hn in T. exact T.
    + rewrite (offers_read _ _ Ho) in T. rewrite <- info_newer in Hn. apply not_true_iff_false in Hn. rewrite Hn in T. exact T.
  - intros Hn. destruct (w_net world) as [|[|body [|]] rest]; try exact T. destruct (Hn body eq_refl) as [N1 N2].
    destruct (read_releases body) as [[[info|]|e]| |] eqn:Er; try exact T.
    + apply read_offers in Er. elim N2. exists (offer_of info). tauto.
    + apply read_none in Er. contradiction.
Qed.
Print Assumptions C101_top_line.

Definition top_world (net : list net_reply) : world := set_net net (vault_world (b "/v") []).

Definition shows_after (body : bytes) : option bytes * res bool :=
  let p := demo_gui (top_world [NetBody body true]) (enter_freddy ++ [Checked; Press KDown]) in (shown (fst p) VVersion, snd p).
Example C101_example :
  (exists m, load_config toy_yaml (w_disk (top_world [])) (b "/c") = Ok m /\ is_available m = true) /\
  shows_after (release (b "1.4.0")) = (Some (b "1Pass v1.3.1 (new version is available: v1.4.0 - run '1pass update' to upgrade)"), Ok true) /\
  shows_after (release (b "1.3.1")) = (Some (b "1Pass v1.3.1 (up to date)"), Ok true) /\
  shows_after (b "Not found") = (Some (b "1Pass v1.3.1 (update check failed - run '1pass update' for more info)"), Ok true).
Proof.
  split.
  - assert (E : match load_config toy_yaml (w_disk (top_world [])) (b "/c") with Ok m => is_available m | _ => false end = true) by (vm_compute; reflexivity).
    destruct (load_config toy_yaml (w_disk (top_world [])) (b "/c")) as [m| |]; try discriminate. eauto.
  - split; [vm_compute; reflexivity|]. split; vm_compute; reflexivity.
Qed.
