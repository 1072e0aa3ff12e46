(** Reading an item in the GUI by scrolling (C113).  Histories, vaults, items and sizes are arbitrary. *)
From Verif Require Import Base Utf8 GoStrings Json Civil Crypto Path Fs FsProof Domain Spec_Domain Repos Session SessionProof
  World WorldProof Config Updater Cli CliProof CliEvents Toy ToyYaml Gui Spec_Gui GuiProof GuiRun GuiCursor GuiWorld.
From Verif Require Import Properties_Vault Properties_Layout Properties_Session Properties_Update Properties_Check Properties_Cli Properties_Cli2 Properties_Show Properties_End
  Properties_Gui Properties_Gui2 Properties_Gui3 Properties_Gui4.

Local Open Scope st_scope.

(** ** Specification *)

Definition arrow (k : key) : Prop := k = KUp \/ k = KDown \/ k = KLeft \/ k = KRight.

(** A view shows the part of its text that starts at its origin and is as wide and high as the view. *)
Definition place_in_sight (d : view) (column line : Z) : Prop :=
  (v_ox d <= column < v_ox d + v_w d /\ v_oy d <= line < v_oy d + v_h d)%Z.

(** Each arrow moves what is shown by one, but not beyond the first line and column. *)
Definition scrolled (k : key) (at_ : Z * Z) : Z * Z :=
  let (x, y) := at_ in
  match k with
  | KUp => (x, Z.max 0 (y - 1))
  | KDown => (x, y + 1)
  | KLeft => (Z.max 0 (x - 1), y)
  | KRight => (x + 1, y)
  | _ => at_
  end%Z.

(** Where arrows lead. *)
Definition arrows_lead (ks : list key) (at_ : Z * Z) : Z * Z := fold_left (fun p k => scrolled k p) ks at_.

(** The lines of a text, separated by newlines. *)
Definition line_count (t : bytes) : Z := Z.of_nat (S (count_occ ascii_dec t "010"%char)).

(** ** C113 *)

(** An arrow pressed while an item is in the focus moves what is shown of it by one; text, size and focus stay. *)
Theorem C113_arrow_moves : forall C U tz Y dir center g O k d,
  running C U tz Y dir center g -> fits g -> current g = VDetails -> view_of g VDetails = Some d -> oracles_ok O -> arrow k ->
  exists g' d', gui_step C U tz O dir center (Press k) g = (g', Ok true) /\ running C U tz Y dir center g' /\ fits g' /\ current g' = VDetails /\
    view_of g' VDetails = Some d' /\ v_text d' = v_text d /\ v_w d' = v_w d /\ v_h d' = v_h d /\ (v_ox d', v_oy d') = scrolled k (v_ox d, v_oy d).
Proof.
  intros C U tz Y dir center g O k d R F Hc Hd HO Hk. assert (G := running_inv _ _ _ _ _ _ _ R).
  destruct (gi_origin _ _ _ _ _ G _ _ Hd) as [O1 O2].
  assert (Hf : exists f, on_key C U tz O center VDetails k = try_view VDetails f /\ moves f /\
     exists d1, f d = Some d1 /\ v_text d1 = v_text d /\ v_w d1 = v_w d /\ v_h d1 = v_h d /\ (v_ox d1, v_oy d1) = scrolled k (v_ox d, v_oy d)).
  { assert (S : forall x y, (0 <= x)%Z -> (0 <= y)%Z -> set_origin x y d = Some (MkView (v_w d) (v_h d) (v_text d) (v_cx d) (v_cy d) x y)).
    { intros x y Hx Hy. unfold set_origin. apply Z.ltb_ge in Hx, Hy. rewrite Hx, Hy. reflexivity. }
    destruct Hk as [-> | [-> | [-> | ->]]]; eexists; (split; [reflexivity|]).
    - split; [apply (scroll_up_moves C U tz dir center)|]. unfold scroll_up. destruct (0 <? v_oy d)%Z eqn:E; bools.
      + rewrite S by lia. eexists. split; [reflexivity|]. repeat split. cbn [v_ox v_oy scrolled]. f_equal. lia.
      + exists d. repeat split. cbn [scrolled]. f_equal. lia.
    - split; [apply (scroll_down_moves C U tz dir center)|]. unfold scroll_down. rewrite S by lia. eexists. split; [reflexivity|]. repeat split.
    - split; [apply (scroll_left_moves C U tz dir center)|]. unfold scroll_left. destruct (0 <? v_ox d)%Z eqn:E; bools.
      + rewrite S by lia. eexists. split; [reflexivity|]. repeat split. cbn [v_ox v_oy scrolled]. f_equal. lia.
      + exists d. repeat split. cbn [scrolled]. f_equal. lia.
    - split; [apply (scroll_right_moves C U tz dir center)|]. unfold scroll_right. rewrite S by lia. eexists. split; [reflexivity|]. repeat split. }
  destruct Hf as (f & Ek & Hm & d1 & Ef & T1 & W1 & H1 & P1).
  destruct (scroll_run C U tz dir center f g Hm G Hc) as (g1 & E1 & G1 & L1).
  assert (E1' := E1). apply try_inv in E1'. destruct E1' as (v & v' & V1 & V2 & Eg).
  assert (Hd1 : view_of g1 VDetails = Some d1).
  { assert (v = d) by congruence. subst v. assert (v' = d1) by congruence. subst v' g1. reflexivity. }
  assert (M := gi_mode _ _ _ _ _ G1).
  assert (V : view_of g1 VMenu <> None) by (destruct (mode_views C U tz dir center g1 G1) as (mv & Hmv); congruence).
  destruct (layout_ok C U tz dir center g1 (gi_version _ _ _ _ _ G1) (gi_help _ _ _ _ _ G1) V) as (g2 & ok & El & Rs & Hok).
  assert (F1 : fits g1) by (unfold fits in *; rewrite (lk_w _ _ L1), (lk_h _ _ L1); exact F).
  destruct ok; [|elim (Hok eq_refl); exact F1].
  assert (Es : gui_step C U tz O dir center (Press k) g = (g2, Ok true)).
  { assert (Q : gui_step C U tz O dir center (Press k) g = (ok <- (handle C U tz O dir center (Press k) ;;? layout center) ;; if ok then ret true else os_exit 1)%st g)
      by (destruct Hk as [-> | [-> | [-> | ->]]]; reflexivity).
    rewrite Q. unfold check. unfold bind at 1 2. unfold handle, get. unfold bind at 1. change (ui_cur (g_ui g)) with (current g). rewrite Hc, Ek, E1.
    rewrite El. reflexivity. }
  exists g2, d1. split; [exact Es|]. split; [exact (running_step _ _ _ _ _ _ _ _ _ _ R HO Es)|].
  assert (L2 := resized_look C U tz dir center _ _ Rs).
  split; [unfold fits in *; rewrite (lk_w _ _ L2), (lk_h _ _ L2); exact F1|]. split; [rewrite (lk_cur _ _ L2), (lk_cur _ _ L1); exact Hc|].
  assert (D := held_in _ _ _ _ _ (layout_details center) El). unfold details_view in D. rewrite D. auto.
Qed.
Print Assumptions C113_arrow_moves.

(** So do any number of arrows, however the outside world behaves meanwhile. *)
Theorem C113_arrows_move : forall C U tz Y dir center ks g d,
  running C U tz Y dir center g -> fits g -> current g = VDetails -> view_of g VDetails = Some d ->
  Forall (fun e => oracles_ok (fst e) /\ arrow (snd e)) ks ->
  exists g' d', play C U tz dir center (map (fun e => (fst e, Press (snd e))) ks) g = (g', Ok true) /\
    running C U tz Y dir center g' /\ fits g' /\ current g' = VDetails /\
    view_of g' VDetails = Some d' /\ v_text d' = v_text d /\ v_w d' = v_w d /\ v_h d' = v_h d /\
    (v_ox d', v_oy d') = arrows_lead (map snd ks) (v_ox d, v_oy d).
Proof.
  intros C U tz Y dir center ks. induction ks as [|[O k] ks IH]; intros g d R F Hc Hd Hk.
  - exists g, d. split; [reflexivity|]. auto 12.
  - inversion Hk as [|? ? [HO Ha] Hk']; subst. cbn [fst snd] in HO, Ha.
    destruct (C113_arrow_moves C U tz Y dir center g O k d R F Hc Hd HO Ha) as (g1 & d1 & E1 & R1 & F1 & C1 & V1 & T1 & W1 & H1 & P1).
    destruct (IH g1 d1 R1 F1 C1 V1 Hk') as (g2 & d2 & E2 & R2 & F2 & C2 & V2 & T2 & W2 & H2 & P2).
    exists g2, d2. split; [cbn [map fst snd play]; unfold bind; rewrite E1; exact E2|]. split; [exact R2|]. split; [exact F2|]. split; [exact C2|]. split; [exact V2|].
    split; [congruence|]. split; [congruence|]. split; [congruence|]. rewrite P2, P1. reflexivity.
Qed.
Print Assumptions C113_arrows_move.

Lemma lead_left n x y : arrows_lead (repeat KLeft n) (x, y) = (if Nat.eqb n 0 then x else Z.max 0 (x - Z.of_nat n), y)%Z.
Proof. revert x. induction n as [|n IH]; intros x; [reflexivity|]. cbn [repeat]. unfold arrows_lead in *. cbn [fold_left scrolled]. rewrite IH. f_equal. destruct n; cbn [Nat.eqb]; lia. Qed.
Lemma lead_up n x y : arrows_lead (repeat KUp n) (x, y) = (x, if Nat.eqb n 0 then y else Z.max 0 (y - Z.of_nat n))%Z.
Proof. revert y. induction n as [|n IH]; intros y; [reflexivity|]. cbn [repeat]. unfold arrows_lead in *. cbn [fold_left scrolled]. rewrite IH. f_equal. destruct n; cbn [Nat.eqb]; lia. Qed.
Lemma lead_right n x y : arrows_lead (repeat KRight n) (x, y) = (x + Z.of_nat n, y)%Z.
Proof. revert x. induction n as [|n IH]; intros x; [cbn [repeat]; unfold arrows_lead; cbn [fold_left]; f_equal; lia|]. cbn [repeat]. unfold arrows_lead in *. cbn [fold_left scrolled]. rewrite IH. f_equal. lia. Qed.
Lemma lead_down n x y : arrows_lead (repeat KDown n) (x, y) = (x, y + Z.of_nat n)%Z.
Proof. revert y. induction n as [|n IH]; intros y; [cbn [repeat]; unfold arrows_lead; cbn [fold_left]; f_equal; lia|]. cbn [repeat]. unfold arrows_lead in *. cbn [fold_left scrolled]. rewrite IH. f_equal. lia. Qed.
Lemma lead_app ks ks' p : arrows_lead (ks ++ ks') p = arrows_lead ks' (arrows_lead ks p).
Proof. unfold arrows_lead. apply fold_left_app. Qed.

Lemma press_arrows C U tz Y dir center g O d ks :
  running C U tz Y dir center g -> fits g -> current g = VDetails -> view_of g VDetails = Some d -> oracles_ok O -> Forall arrow ks ->
  exists g' d', play C U tz dir center (map (fun k => (O, Press k)) ks) g = (g', Ok true) /\ view_of g' VDetails = Some d' /\
    v_text d' = v_text d /\ v_w d' = v_w d /\ v_h d' = v_h d /\ (v_ox d', v_oy d') = arrows_lead ks (v_ox d, v_oy d).
Proof.
  intros R F Hc Hd HO Hk. destruct (C113_arrows_move C U tz Y dir center (map (fun k => (O, k)) ks) g d R F Hc Hd) as (g' & d' & E & _ & _ & _ & V & T & W & H & P).
  - rewrite Forall_map. eapply Forall_impl; [|exact Hk]. intros k Ha. split; assumption.
  - rewrite !map_map in *. cbn [fst snd] in *. rewrite map_id in P. exists g', d'. auto 10.
Qed.

(** Whatever is in sight, there are arrows that bring any place of the item into sight. *)
Theorem C113_all_in_sight : forall C U tz Y dir center g O d column line_,
  running C U tz Y dir center g -> fits g -> current g = VDetails -> view_of g VDetails = Some d -> oracles_ok O ->
  (1 <= v_w d)%Z -> (1 <= v_h d)%Z -> (0 <= column)%Z -> (0 <= line_)%Z ->
  exists ks g' d', Forall arrow ks /\ play C U tz dir center (map (fun k => (O, Press k)) ks) g = (g', Ok true) /\
    view_of g' VDetails = Some d' /\ v_text d' = v_text d /\ place_in_sight d' column line_.
Proof.
  intros C U tz Y dir center g O d x y R F Hc Hd HO Hw Hh Hx Hy.
  destruct (gi_origin _ _ _ _ _ (running_inv _ _ _ _ _ _ _ R) _ _ Hd) as [O1 O2].
  set (ks := repeat KLeft (Z.to_nat (v_ox d)) ++ repeat KUp (Z.to_nat (v_oy d)) ++ repeat KRight (Z.to_nat x) ++ repeat KDown (Z.to_nat y)).
  assert (Hk : Forall arrow ks) by (unfold ks, arrow; rewrite !Forall_app; repeat split; apply Forall_forall; intros k Hin; apply repeat_spec in Hin; auto).
  destruct (press_arrows C U tz Y dir center g O d ks R F Hc Hd HO Hk) as (g' & d' & E & V & T & W & H & P).
  exists ks, g', d'. split; [exact Hk|]. split; [exact E|]. split; [exact V|]. split; [exact T|].
  assert (Q : arrows_lead ks (v_ox d, v_oy d) = (x, y)).
  { unfold ks. rewrite !lead_app, lead_left, lead_up, lead_right, lead_down.
    f_equal; match goal with |- context [Nat.eqb ?n 0] => destruct (Nat.eqb_spec n 0) end; lia. }
  rewrite Q in P. injection P as P1 P2. unfold place_in_sight. rewrite P1, P2, W, H. lia.
Qed.
Print Assumptions C113_all_in_sight.

(** Nothing stops the scrolling where the item ends: from every state there are arrows after which no line of it is in sight. *)
Theorem C113_scrolls_past_end : forall C U tz Y dir center g O d,
  running C U tz Y dir center g -> fits g -> current g = VDetails -> view_of g VDetails = Some d -> oracles_ok O ->
  exists ks g' d', Forall arrow ks /\ play C U tz dir center (map (fun k => (O, Press k)) ks) g = (g', Ok true) /\
    view_of g' VDetails = Some d' /\ v_text d' = v_text d /\
    forall column line_, place_in_sight d' column line_ -> (line_count (v_text d') <= line_)%Z.
Proof.
  intros C U tz Y dir center g O d R F Hc Hd HO.
  destruct (gi_origin _ _ _ _ _ (running_inv _ _ _ _ _ _ _ R) _ _ Hd) as [O1 O2].
  set (ks := repeat KDown (Z.to_nat (line_count (v_text d)))).
  assert (Hk : Forall arrow ks) by (unfold ks, arrow; apply Forall_forall; intros k Hin; apply repeat_spec in Hin; auto).
  destruct (press_arrows C U tz Y dir center g O d ks R F Hc Hd HO Hk) as (g' & d' & E & V & T & W & H & P).
  exists ks, g', d'. split; [exact Hk|]. split; [exact E|]. split; [exact V|]. split; [exact T|].
  unfold ks in P. rewrite lead_down in P. injection P as P1 P2. intros x y [_ S]. rewrite T. unfold line_count in *. lia.
Qed.
Print Assumptions C113_scrolls_past_end.

(** An item of the demo vault in the focus, scrolled right and down; the item has three lines or more. *)
Example C113_example :
  let g := fst (demo_gui (vault_world (b "/v") []) (enter_freddy ++ [Press KEnter; Press KTab; Press KRight; Press KDown])) in
  demo_running g /\ fits g /\ current g = VDetails /\ oracles_ok forwards /\
  exists d, view_of g VDetails = Some d /\ (1 <= v_w d)%Z /\ (1 <= v_h d)%Z /\ v_ox d = 1%Z /\ v_oy d = 1%Z /\ (3 <= line_count (v_text d))%Z.
Proof.
  set (p := demo_gui (vault_world (b "/v") []) (enter_freddy ++ [Press KEnter; Press KTab; Press KRight; Press KDown])). cbv zeta.
  assert (E : (snd p, current (fst p), ui_w (g_ui (fst p)), ui_h (g_ui (fst p)),
     option_map (fun d => (v_ox d, v_oy d, (1 <=? v_w d)%Z, (1 <=? v_h d)%Z, (3 <=? line_count (v_text d))%Z)) (view_of (fst p) VDetails)) =
     (Ok true, VDetails, 80%Z, 24%Z, Some (1%Z, 1%Z, true, true, true))) by (vm_compute; reflexivity).
  apply pair_eq in E. destruct E as [E E5]. apply pair_eq in E. destruct E as [E E4]. apply pair_eq in E. destruct E as [E E3]. apply pair_eq in E. destruct E as [E1 E2].
  split; [exact (demo_runs _ _ E1)|]. split; [unfold fits; rewrite E3, E4; lia|]. split; [exact E2|]. split; [exact forwards_ok|].
  destruct (view_of (fst p) VDetails) as [d|]; [|discriminate]. exists d. split; [reflexivity|]. cbn [option_map] in E5. injection E5 as Q1 Q2 Q3 Q4 Q5.
  repeat split; lia.
Qed.
