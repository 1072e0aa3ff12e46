(** What is highlighted is what is selected (C84), the help line (C85), items are shown from their beginning (C86). *)
From Verif Require Import Base Utf8 Spec_Numeral GoStrings GoStringsProof Json Civil Crypto Path Fs Domain DomainProof Repos Session SessionProof
  World WorldProof Config Updater Cli CliProof CliEvents Spec_Vault Spec_Writer Spec_Domain VaultProof Toy ToyYaml Gui Spec_Gui GuiProof GuiRun GuiCursor.
From Verif Require Import Properties_Session Properties_Cli Properties_Show Properties_End Properties_Gui.

Local Notation newline := World.newline.
Local Notation details_lines := Gui.details_lines.

(** ** Specification *)

(** The lines of a text. *)
Fixpoint text_lines (t : bytes) : list bytes :=
  match t with
  | [] => [[]]
  | c :: t => if Ascii.eqb c (ascii_of_nat 10) then [] :: text_lines t
              else match text_lines t with l :: ls => (c :: l) :: ls | [] => [[c]] end
  end.

(** The line under the cursor of a view; that line is drawn highlighted. *)
Definition highlighted (g : gui) (n : vname) : option bytes :=
  match view_of g n with
  | Some v => nth_error (text_lines (v_text v)) (Z.to_nat (v_oy v + v_cy v))
  | None => None
  end.
(** That line is on the screen, if the view has any. *)
Definition in_sight (g : gui) (n : vname) : Prop :=
  exists v, view_of g n = Some v /\ (0 < v_h v -> 0 <= v_cy v < v_h v)%Z.

Definition one_line (t : bytes) : Prop := ~ In (ascii_of_nat 10) t.

(** What a row and an entry are called on the screen. *)
Definition row_name (r : simple_item) : bytes := match s_title r with [] => b "<NO TITLE>" | t => t end.
Definition entry_label (items : list item) (e : entry) : bytes :=
  entry_name e ++ b " (" ++ itoa (Z.of_nat (length (filter (belongs e) items))) ++ b ")".

(** ** Lemmas *)

Lemma lines_cons l t : one_line l -> text_lines (l ++ newline ++ t) = l :: text_lines t.
Proof.
  intros H. induction l as [|c l IH]; [reflexivity|]. cbn [Datatypes.app text_lines].
  destruct (Ascii.eqb c (ascii_of_nat 10)) eqn:E; [apply Ascii.eqb_eq in E; exfalso; apply H; now left|].
  rewrite IH; [reflexivity|]. intros X. apply H. now right.
Qed.
Lemma lines_last l : one_line l -> text_lines l = [l].
Proof.
  intros H. induction l as [|c l IH]; [reflexivity|]. cbn [text_lines].
  destruct (Ascii.eqb c (ascii_of_nat 10)) eqn:E; [apply Ascii.eqb_eq in E; exfalso; apply H; now left|].
  rewrite IH; [reflexivity|]. intros X. apply H. now right.
Qed.
Lemma lines_list {A} (f : A -> bytes) (l : list A) i x : (forall y, In y l -> one_line (f y)) -> nth_error l i = Some x ->
  nth_error (text_lines (concat (map (fun y => f y ++ newline) l))) i = Some (f x).
Proof.
  revert i. induction l as [|y l IH]; intros i H Hi; [destruct i; discriminate|]. cbn [map concat]. rewrite <- app_assoc, lines_cons by (apply H; now left).
  destruct i as [|i]; cbn [nth_error] in *; [congruence|]. apply IH; [|exact Hi]. intros z Hz. apply H. now right.
Qed.

Lemma row_name_line r : row_line r = row_name r ++ newline.
Proof. unfold row_line, row_name. now destruct (s_title r). Qed.

(** ** C84 *)

(** In the item list, whatever happened before and however long it is, the highlighted line is the name of the
    selected item, and it is on the screen.  Partial: unless a title has line breaks. *)
Theorem C84_selected_item_highlighted_partial : forall C U tz Y dir center g row,
  running C U tz Y dir center g -> current g = VItems \/ current g = VDetails -> chosen_row g = Some row ->
  (forall r, In r (g_rows g) -> one_line (s_title r)) ->
  highlighted g VItems = Some (row_name row) /\ in_sight g VItems.
Proof.
  intros C U tz Y dir center g row R Hc Hr Hl. assert (G := running_inv _ _ _ _ _ _ _ R). assert (L := list_running _ _ _ _ _ _ _ R).
  assert (M := gi_mode _ _ _ _ _ G). unfold mode in M.
  assert (S : shown g VItems = Some (concat (map row_line (g_rows g)))) by (destruct Hc as [Hc|Hc]; rewrite Hc in M; destruct M as (_ & (_ & _ & _ & M & _) & _); exact M).
  unfold shown in S. destruct (view_of g VItems) as [v|] eqn:Ev; [|discriminate S]. cbn [option_map] in S. injection S as S.
  destruct (L v Ev) as (L1 & L2 & L3 & L4). unfold chosen_row in Hr. destruct (g_row_idx g <? 0)%Z eqn:Ei; [discriminate Hr|]. apply Z.ltb_ge in Ei. split.
  - unfold highlighted. rewrite Ev, S, L3, Z.max_r by exact Ei. rewrite (map_ext _ _ row_name_line).
    apply lines_list; [|exact Hr]. intros r Hin X. specialize (Hl r Hin). unfold row_name in X. destruct (s_title r); [|exact (Hl X)].
    cbn in X. repeat (destruct X as [X|X]; [discriminate X|]). exact X.
  - exists v. split; [exact Ev|]. lia.
Qed.
Print Assumptions C84_selected_item_highlighted_partial.

Example C84_item_example :
  let g := fst (demo_gui (vault_world (b "/v") []) (enter_freddy ++ [Press KEnter; Press KDown])) in
  demo_running g /\ current g = VItems /\ option_map s_title (chosen_row g) = Some (b "Visa") /\ (forall r, In r (g_rows g) -> one_line (s_title r)) /\ highlighted g VItems = Some (b "Visa").
Proof.
  set (p := demo_gui (vault_world (b "/v") []) (enter_freddy ++ [Press KEnter; Press KDown])).
  assert (E : (snd p, current (fst p), map s_title (g_rows (fst p)), option_map s_title (chosen_row (fst p)), highlighted (fst p) VItems) =
    (Ok true, VItems, [b "Mail"; b "Visa"], Some (b "Visa"), Some (b "Visa"))) by (vm_compute; reflexivity).
  apply pair_eq in E. destruct E as [E E5]. apply pair_eq in E. destruct E as [E E4]. apply pair_eq in E. destruct E as [E E3]. apply pair_eq in E. destruct E as [E1 E2].
  split; [exact (demo_runs _ _ E1)|]. split; [exact E2|]. split; [exact E4|]. split; [|exact E5].
  intros r Hr X. apply (in_map s_title) in Hr. cbv zeta in Hr. fold p in Hr. rewrite E3 in Hr.
  destruct Hr as [Hr|[Hr|[]]]; rewrite <- Hr in X; cbn in X; repeat (destruct X as [X|X]; [discriminate X|]); exact X.
Qed.

(** A title with a line break moves the highlight away from what is selected. *)
Definition broken_login : stored :=
  MkStored (b "AA") (b "001") 1300000000 1400000000 false
    [(b "title", JStr (b "Mail" ++ newline ++ b "old"))] [(b "notesPlain", JStr (b "hi"))] (repeat "a"%char 32) (repeat "A"%char 32).
Definition broken_world : world :=
  let w := vault_world (b "/v") [] in
  set_disk (MkDisk (([b "c"], NDir) ::
     ([config_file; b "c"], NFile (match y_print toy_yaml (off_settings (b "/v")) with Some s => s | None => [] end) 420)
     :: d_fs (write_disk toy_crypto (b "v") (b "freddy") demo_secrets [(b "band_0.js", [broken_login]); (b "band_A.js", [demo_card])])) [] (fun _ => false)) w.

Theorem C84_selected_item_highlighted_refuted : exists C U tz Y dir center g row,
  running C U tz Y dir center g /\ current g = VItems /\ chosen_row g = Some row /\ highlighted g VItems <> Some (row_name row) /\
  s_title row = b "Visa" /\ highlighted g VItems = Some (b "old").
Proof.
  exists toy_crypto, latin1, utc, toy_yaml, (b "/c"), (fun t _ => t), (fst (demo_gui broken_world (enter_freddy ++ [Press KEnter; Press KDown; Press KDown]))).
  set (p := demo_gui broken_world (enter_freddy ++ [Press KEnter; Press KDown; Press KDown])).
  assert (E : (snd p, current (fst p), option_map s_title (chosen_row (fst p)), highlighted (fst p) VItems) =
    (Ok true, VItems, Some (b "Visa"), Some (b "old"))) by (vm_compute; reflexivity).
  apply pair_eq in E. destruct E as [E E4]. apply pair_eq in E. destruct E as [E E3]. apply pair_eq in E. destruct E as [E1 E2].
  destruct (chosen_row (fst p)) as [row|]; [|discriminate E3]. cbn [option_map] in E3. injection E3 as E3. exists row.
  split; [exact (demo_runs _ _ E1)|]. split; [exact E2|]. split; [reflexivity|]. rewrite E4. split; [|split; [exact E3|reflexivity]].
  unfold row_name. rewrite E3. discriminate.
Qed.
Print Assumptions C84_selected_item_highlighted_refuted.

Lemma entry_line_label (center : bytes -> Z -> bytes) (w : Z) (items : list item) : forall es : list entry, (forall e, In e es -> one_line (center (entry_label items e) w)) -> ~ In Trash (removelast es) -> forall i e, nth_error es i = Some e ->
  nth_error (text_lines (concat (map (fun e => center (entry_name e ++ b " (" ++ itoa (Z.of_nat (length (filter (belongs e) items))) ++ b ")") w ++ match e with Trash => [] | _ => newline end) es))) i = Some (center (entry_label items e) w).
Proof.
  induction es as [|x es IH]; intros H Hn i e Hi; [destruct i; discriminate|].
  assert (Hx : one_line (center (entry_label items x) w)) by (apply H; now left).
  assert (T : x = Trash -> es = []). { intros ->. destruct es; [reflexivity|]. exfalso. apply Hn. now left. }
  assert (D : x = Trash \/ x <> Trash) by (destruct x; auto; right; discriminate). destruct D as [->|D].
  - rewrite (T eq_refl) in *. cbn [map concat]. rewrite !app_nil_r. destruct i as [|[|]]; cbn [nth_error] in Hi; try discriminate Hi.
    injection Hi as <-. change (center _ w) with (center (entry_label items Trash) w) at 1. rewrite lines_last by exact Hx. reflexivity.
  - cbn [map concat]. change (center (entry_name x ++ _) w) with (center (entry_label items x) w).
    replace (match x with Trash => [] | _ => newline end) with newline by (destruct x; congruence). rewrite <- app_assoc, lines_cons by exact Hx.
    destruct i as [|i]; cbn [nth_error] in *; [congruence|]. apply IH; [intros y Hy; apply H; now right| |exact Hi].
    destruct es; [intros []|]. intros X. apply Hn. now right.
Qed.
Lemma digits_one_line n : one_line (dec_of_N n).
Proof.
  intros X. assert (Hd := dec_of_N_digits n). rewrite forallb_forall in Hd. specialize (Hd _ X). discriminate Hd.
Qed.
Lemma one_line_app a c : one_line a -> one_line c -> one_line (a ++ c).
Proof. intros Ha Hc X. apply in_app_or in X. unfold one_line in *. tauto. Qed.
Definition no_break (t : bytes) : bool := forallb (fun c => negb (Ascii.eqb c (ascii_of_nat 10))) t.
Lemma no_break_line t : no_break t = true -> one_line t.
Proof. intros H X. unfold no_break in H. rewrite forallb_forall in H. specialize (H _ X). rewrite Ascii.eqb_refl in H. discriminate H. Qed.
Lemma label_one_line items e : In e all_entries -> one_line (entry_label items e).
Proof.
  intros He. unfold entry_label. apply one_line_app; [|apply one_line_app; [now apply no_break_line|apply one_line_app; [|now apply no_break_line]]].
  - apply no_break_line. assert (F : forallb (fun e => no_break (entry_name e)) all_entries = true) by (vm_compute; reflexivity).
    rewrite forallb_forall in F. exact (F e He).
  - unfold itoa. destruct (_ <? 0)%Z; [|apply digits_one_line]. intros [X|X]; [discriminate X|exact (digits_one_line _ X)].
Qed.
Lemma trash_last (f : entry -> bool) : ~ In Trash (removelast (filter f all_entries)).
Proof.
  assert (E : all_entries = removelast all_entries ++ [Trash]) by (vm_compute; reflexivity).
  assert (N : ~ In Trash (removelast all_entries)) by (vm_compute; intros X; repeat (destruct X as [X|X]; [discriminate X|]); exact X).
  rewrite E, filter_app. cbn [filter]. destruct (f Trash).
  - rewrite removelast_last. intros X. apply filter_In in X. exact (N (proj1 X)).
  - rewrite app_nil_r. intros X. apply N. assert (Y : forall (l : list entry) x, In x (removelast l) -> In x l).
    { clear. induction l as [|y l IH]; intros x; cbn [removelast]; [auto|]. destruct l; [intros []|]. intros [->|H]; [now left|right; now apply IH]. }
    apply Y in X. apply filter_In in X. exact (proj1 X).
Qed.

(** In the menu the highlighted line is the one of the selected entry and it is on the screen, when the terminal has
    at least 28 lines.  Partial: while the size of the terminal stays the same.  Centring keeps a line a line. *)
Theorem C84_selected_entry_highlighted_partial : forall C U tz Y dir center path w h es world g e,
  (3 <= w)%Z -> (28 <= h)%Z -> (forall t n, one_line t -> one_line (center t n)) ->
  Forall (fun x => oracles_ok (fst x) /\ forall w' h', snd x <> Resize w' h') es ->
  gui_process C U tz Y dir center path w h es world = (g, Ok true) -> is_unlocked (session g) = true -> selected_entry g = Some e ->
  exists items width, (forall i, In i items <-> held (session g) i) /\ NoDup (map it_uid items) /\
    highlighted g VMenu = Some (center (entry_label items e) width) /\ in_sight g VMenu.
Proof.
  intros C U tz Y dir center path w h es world g e Hw Hh Hcen Hes Hg Hu He.
  assert (R : running C U tz Y dir center g).
  { exists path, w, h, es, world. split; [|exact Hg]. eapply Forall_impl; [|exact Hes]. now intros x [X _]. }
  assert (Mm : menu_marks w h g).
  { apply (menu_running C U tz dir center w h Hw Hh Y path es world); [|exact Hg]. eapply Forall_impl; [|exact Hes].
    intros [O i] [X1 X2]. split; [exact X1|]. destruct i; cbn [snd]; try exact Logic.I. exact (X2 _ _ eq_refl). }
  assert (G := running_inv _ _ _ _ _ _ _ R). assert (M := gi_mode _ _ _ _ _ G). assert (Hr := gi_reach _ _ _ _ _ G).
  assert (H : exists w, shown g VMenu = Some (menu_text center w (session g))).
  { unfold mode, closed_menu, open_menu in M. destruct (current g); try contradiction; try tauto; destruct M as ((X & _) & _); congruence. }
  destruct H as [wd H]. rewrite menu_text_lines in H. exists (items_list (st_items (session g))), wd.
  split; [intros i; symmetry; apply (held_spec C U tz (session g) Hr)|]. split; [apply (inv_uids _ (reachable_inv C U tz _ Hr))|].
  unfold shown in H. destruct (view_of g VMenu) as [v|] eqn:Ev; [|discriminate H]. cbn [option_map] in H. injection H as H.
  destruct Mm as (_ & _ & Mm). destruct (Mm v Ev) as (V1 & V2 & V3 & V4 & V5 & V6).
  destruct (selected_menu g e He Hu) as (E1 & E2 & E3). assert (En := E1). rewrite Z.max_r in V5 by exact E2. split.
  - unfold highlighted. rewrite Ev, H, V4, V5, Z.add_0_l. unfold menu_lines. apply entry_line_label.
    + intros x Hx. apply Hcen, label_one_line. unfold entries_for in Hx. apply filter_In in Hx. exact (proj1 Hx).
    + apply trash_last.
    + rewrite <- E3 in E1. unfold entries in E1. rewrite Hu in E1. exact E1.
  - exists v. split; [exact Ev|]. intros _. rewrite V2, V5. assert (Hl : (length (menu (session g)) <= 20)%nat) by (eapply menu_length; first [exact dir|exact center|exact w|exact h|eassumption]).
    assert (Z.to_nat (g_menu_idx g) < length (menu (session g)))%nat by (apply nth_error_Some; rewrite En; discriminate). lia.
Qed.
Print Assumptions C84_selected_entry_highlighted_partial.

Definition tall_gui_in (w : world) (h : Z) (es : list input) : gui * res bool :=
  gui_process toy_crypto latin1 utc toy_yaml (b "/c") (fun t _ => t) [] 80 h (map (fun i => (forwards, i)) es) w.
Lemma tall_is w h es : snd (tall_gui_in w h es) = Ok true ->
  gui_process toy_crypto latin1 utc toy_yaml (b "/c") (fun t _ => t) [] 80 h (map (fun i => (forwards, i)) es) w = (fst (tall_gui_in w h es), Ok true).
Proof. intros H. change (tall_gui_in w h es = (fst (tall_gui_in w h es), Ok true)). rewrite <- H. now destruct (tall_gui_in w h es). Qed.
Lemma tall_runs w h es : snd (tall_gui_in w h es) = Ok true -> demo_running (fst (tall_gui_in w h es)).
Proof.
  intros H. exists [], 80%Z, h, (map (fun i => (forwards, i)) es), w. split; [|exact (tall_is w h es H)].
  apply Forall_map. apply Forall_forall. intros i _. exact forwards_ok.
Qed.
Local Notation tall_gui := (tall_gui_in (vault_world (b "/v") [])).
Local Opaque tall_gui_in.

Example C84_entry_example :
  let es := enter_freddy ++ [Press KDown; Press KDown] in
  let g := fst (tall_gui 30 es) in
  Forall (fun x => oracles_ok (fst x) /\ forall w' h', snd x <> Resize w' h') (map (fun i => (forwards, i)) es) /\
  snd (tall_gui 30 es) = Ok true /\ is_unlocked (session g) = true /\ selected_entry g = Some (Of (Cat (b "002") (b "Credit Card"))) /\
  highlighted g VMenu = Some (b "Credit Card (1)").
Proof.
  split; [|vm_compute; repeat split; reflexivity]. apply Forall_map. repeat (apply Forall_cons; [split; [exact forwards_ok|discriminate]|]). apply Forall_nil.
Qed.

(** Without its hypothesis on the height: after scrolling the menu, locking and entering the password again, All is
    selected and another entry is highlighted. *)
Theorem C84_menu_after_lock_refuted : exists C U tz Y dir center path w h es world g e,
  (forall t n, one_line t -> one_line (center t n)) /\ Forall (fun x => oracles_ok (fst x) /\ forall w' h', snd x <> Resize w' h') es /\
  gui_process C U tz Y dir center path w h es world = (g, Ok true) /\ is_unlocked (session g) = true /\ selected_entry g = Some e /\
  (forall items width, highlighted g VMenu <> Some (center (entry_label items e) width)).
Proof.
  pose (es := enter_freddy ++ [Press KDown; Press KDown; Press KDown; Press KLock] ++ enter_freddy).
  exists toy_crypto, latin1, utc, toy_yaml, (b "/c"), (fun t _ => t), [], 80%Z, 10%Z, (map (fun i => (forwards, i)) es), (vault_world (b "/v") []), (fst (tall_gui 10 es)), All.
  assert (E : (snd (tall_gui 10 es), is_unlocked (session (fst (tall_gui 10 es))), selected_entry (fst (tall_gui 10 es)), highlighted (fst (tall_gui 10 es)) VMenu) =
    (Ok true, true, Some All, Some (b "Credit Card (1)"))) by (vm_compute; reflexivity).
  apply pair_eq in E. destruct E as [E E4]. apply pair_eq in E. destruct E as [E E3]. apply pair_eq in E. destruct E as [E1 E2].
  split; [auto|]. split; [apply Forall_map; unfold es; cbn [Datatypes.app enter_freddy]; repeat (apply Forall_cons; [split; [exact forwards_ok|discriminate]|]); apply Forall_nil|]. split; [|split; [exact E2|split; [exact E3|]]].
  - exact (tall_is _ _ _ E1).
  - intros items _. rewrite E4. unfold entry_label. intros X. discriminate X.
Qed.
Print Assumptions C84_menu_after_lock_refuted.

(** And when the terminal shrinks: the highlight stays where it was on the screen. *)
Theorem C84_menu_resized_refuted : exists C U tz Y dir center g e,
  running C U tz Y dir center g /\ (forall t n, one_line t -> one_line (center t n)) /\ (28 <= ui_h (g_ui g))%Z /\
  is_unlocked (session g) = true /\ selected_entry g = Some e /\
  (forall items width, highlighted g VMenu <> Some (center (entry_label items e) width)).
Proof.
  pose (es := enter_freddy ++ [Press KDown; Press KDown; Press KDown; Resize 80 9; Press KUp; Resize 80 30]).
  exists toy_crypto, latin1, utc, toy_yaml, (b "/c"), (fun t _ => t), (fst (tall_gui 30 es)), (Of (Cat (b "002") (b "Credit Card"))).
  assert (E : (snd (tall_gui 30 es), ui_h (g_ui (fst (tall_gui 30 es))), is_unlocked (session (fst (tall_gui 30 es))), selected_entry (fst (tall_gui 30 es)), highlighted (fst (tall_gui 30 es)) VMenu) =
    (Ok true, 30%Z, true, Some (Of (Cat (b "002") (b "Credit Card"))), Some (b "Trashed (1)"))) by (vm_compute; reflexivity).
  apply pair_eq in E. destruct E as [E E4]. apply pair_eq in E. destruct E as [E E3]. apply pair_eq in E. destruct E as [E E2]. apply pair_eq in E. destruct E as [E1 E5].
  split; [exact (tall_runs _ _ _ E1)|]. split; [auto|]. split; [rewrite E5; discriminate|]. split; [exact E2|]. split; [exact E3|].
  intros items _. rewrite E4. unfold entry_label. intros X. discriminate X.
Qed.
Print Assumptions C84_menu_resized_refuted.

(** ** C85 *)

(** The keys of the view that has the focus. *)
Definition keys_of (n : vname) : list bytes :=
  match n with VItems => keys_in_list | VDetails => keys_in_details | _ => keys_in_menu end.

(** The help line always names the keys of the view the keys go to; partial: in the menu it may still name those of
    the item list. *)
Theorem C85_help_names_keys_partial : forall C U tz Y dir center g, running C U tz Y dir center g ->
  shown g VHelp = Some (tabbed (keys_anywhere ++ keys_of (current g))) \/
  current g = VMenu /\ shown g VHelp = Some (tabbed (keys_anywhere ++ keys_in_list)).
Proof.
  intros C U tz Y dir center g R. assert (H := help_running _ _ _ _ _ _ _ R). unfold helps, help_line in H.
  replace (help_text menu_help) with (tabbed (keys_anywhere ++ keys_in_menu)) in H by (vm_compute; reflexivity).
  replace (help_text items_help) with (tabbed (keys_anywhere ++ keys_in_list)) in H by (vm_compute; reflexivity).
  replace (help_text details_help) with (tabbed (keys_anywhere ++ keys_in_details)) in H by (vm_compute; reflexivity).
  unfold keys_of. destruct (current g); tauto.
Qed.
Print Assumptions C85_help_names_keys_partial.

Example C85_example :
  let g := fst (demo_gui (vault_world (b "/v") []) (enter_freddy ++ [Press KEnter; Press KTab])) in
  demo_running g /\ current g = VDetails /\ shown g VHelp = Some (tabbed (keys_anywhere ++ keys_in_details)).
Proof. split; [apply demo_runs; vm_compute; reflexivity|]. split; vm_compute; reflexivity. Qed.

(** Going back from the list to the menu leaves the keys of the list. *)
Theorem C85_help_names_keys_refuted : exists C U tz Y dir center g, running C U tz Y dir center g /\
  current g = VMenu /\ shown g VHelp = Some (tabbed (keys_anywhere ++ keys_in_list)) /\ shown g VHelp <> Some (tabbed (keys_anywhere ++ keys_of (current g))).
Proof.
  exists toy_crypto, latin1, utc, toy_yaml, (b "/c"), (fun t _ => t), (fst (demo_gui (vault_world (b "/v") []) (enter_freddy ++ [Press KEnter; Press KBack]))).
  assert (E : snd (demo_gui (vault_world (b "/v") []) (enter_freddy ++ [Press KEnter; Press KBack])) = Ok true) by (vm_compute; reflexivity).
  split; [exact (demo_runs _ _ E)|]. split; [vm_compute; reflexivity|]. split; [vm_compute; reflexivity|]. vm_compute. discriminate.
Qed.
Print Assumptions C85_help_names_keys_refuted.

(** ** C86 *)

(** The text of an item is shown from its first line and column. *)
Definition from_start (g : gui) : Prop := forall d, view_of g VDetails = Some d -> v_oy d = 0%Z /\ v_ox d = 0%Z.

(** Whenever the keys do not scroll the details, the first line of the item is the first line shown. *)
Theorem C86_first_line_shown : forall C U tz Y dir center g d,
  running C U tz Y dir center g -> current g <> VDetails -> view_of g VDetails = Some d -> v_oy d = 0%Z.
Proof. intros C U tz Y dir center g d R Hc Hd. exact (proj1 (rests_running _ _ _ _ _ _ _ R Hc d Hd)). Qed.
Print Assumptions C86_first_line_shown.

Lemma layout_details center : holds details_view (layout center).
Proof. unfold layout, version_layout, help_layout, menu_layout, help_update, menu_update, prompt_layout; held; now apply holds_help. Qed.

Lemma update_from_start U tz center C m g g' : ginv C U tz center g -> (forall d, view_of g VDetails = Some d -> v_oy d = 0%Z) ->
  forall h, details_view h = details_view g -> details_update tz m h = (g', Ok true) -> from_start g'.
Proof.
  intros G Hd h Hh E d Hx. unfold details_view in Hh.
  unfold details_update, bind at 1, get at 1 in E. apply check_inv in E. destruct E as (g1 & E1 & E). apply try_inv in E1.
  destruct E1 as (d0 & d1 & D1 & D2 & ->). rewrite Hh in D1. destruct (gi_origin _ _ _ _ _ G _ _ D1) as [O1 O2]. apply (reset_top [] center) in D2; [|exact O2]. destruct D2 as [R1 R2].
  cbn [clear v_oy v_ox] in R2. specialize (R2 (Hd _ D1) O1).
  destruct (g_item h) as [i|].
  - unfold on_view in E. cbn [sv set_ui g_ui put_view ui_views vname_eqb] in E. injection E as <-. cbn in Hx. injection Hx as <-. split; [exact R1|exact R2].
  - unfold ret in E. injection E as <-. cbn in Hx. injection Hx as <-. split; [exact R1|exact R2].
Qed.

(** After opening an entry of the menu, after selecting another item and after revealing one, what is shown starts at
    the beginning of the item. *)
Theorem C86_item_shown_from_start : forall C U tz Y dir center g g' O k,
  running C U tz Y dir center g -> oracles_ok O -> gui_step C U tz O dir center (Press k) g = (g', Ok true) ->
  current g = VMenu \/ current g = VItems /\ (k = KTab \/ g_row_idx g' <> g_row_idx g) ->
  from_start g'.
Proof.
  intros C U tz Y dir center g g' O k R HO E H. assert (G := running_inv _ _ _ _ _ _ _ R).
  assert (Hq : k <> KQuit) by (intros ->; unfold gui_step, ret in E; congruence).
  assert (E' : (handle C U tz O dir center (Press k) ;;? layout center) g = (g', Ok true)).
  { unfold gui_step in E. destruct k; try congruence; apply bind_inv in E; destruct E as (h & [|] & E & E2); try (unfold ret in E2; congruence); unfold os_exit, lift in E2; discriminate E2. }
  apply check_inv in E'. destruct E' as (h & E1 & E2).
  assert (L := held_in _ _ _ _ _ (layout_details center) E2). unfold details_view in L.
  assert (I : holds g_row_idx (layout center)) by (unfold layout, version_layout, help_layout, menu_layout, help_update, menu_update, prompt_layout; held; now apply holds_help).
  apply (held_in _ _ _ _ _ I) in E2. clear I.
  assert (S : from_start h -> from_start g') by (intros S d Hd; apply S; congruence). apply S. clear S L.
  change (on_key C U tz O center (current g) k g = (h, Ok true)) in E1. destruct H as [Hc|[Hc H]].
  - assert (M := gi_mode _ _ _ _ _ G). unfold mode in M. rewrite Hc in M. destruct M as (_ & [_ M] & _).
    assert (K : saves (clean true) (on_key C U tz O center VMenu k)).
    { assert (X : forall {A} (m : gact A), holds details_view m -> saves (clean true) m) by (intros; now apply clean_held).
      destruct k; cbn [on_key]; try apply saves_ret; try apply (clean_open_entry U tz dir center); apply X; [unfold menu_up|unfold menu_down|unfold menu_lock, menu_update, prompt_layout]; held; now apply holds_help. }
    rewrite Hc in E1. intros d Hd. destruct (saves_in _ _ _ _ _ K E1) with (d := d) as (X1 & X2 & X3); [|exact Hd|split; [exact X1|now apply X3]].
    intros x Hx. congruence.
  - assert (Hd : forall d, view_of g VDetails = Some d -> v_oy d = 0%Z) by (intros d Hd; apply (C86_first_line_shown _ _ _ _ _ _ _ _ R); [congruence|exact Hd]).
    rewrite Hc in E1.
    assert (SO : forall x, details_view x = details_view g -> show_overview tz x = (h, Ok true) -> from_start h).
    { intros x Hx Ex. unfold show_overview in Ex. apply bind_inv in Ex. destruct Ex as (y & u & Ey & Ex).
      assert (P : holds details_view pick_item) by (unfold pick_item; held). apply (held_in _ _ _ _ _ P) in Ey.
      exact (update_from_start _ _ _ _ _ _ _ G Hd y (eq_trans Ey Hx) Ex). }
    assert (T : holds details_view (try_view VItems line_down)) by held. assert (T' : holds details_view (try_view VItems line_up)) by held.
    destruct k; cbn [on_key] in E1; try (exfalso; destruct H as [H|H]; [discriminate H|]; apply H; unfold ret in E1; congruence).
    + unfold row_up, bind at 1, get at 1 in E1. destruct (0 <? g_row_idx g)%Z.
      * apply check_inv in E1. destruct E1 as (x & Ex & E1). apply (held_in _ _ _ _ _ T') in Ex. unfold bind at 1, put at 1 in E1. refine (SO _ _ E1). exact Ex.
      * exfalso; destruct H as [H|H]; [discriminate H|]; apply H; unfold ret in E1; congruence.
    + unfold row_down, bind at 1, get at 1, bind at 1, get at 1 in E1. destruct (negb _ && _)%bool.
      * apply check_inv in E1. destruct E1 as (x & Ex & E1). apply (held_in _ _ _ _ _ T) in Ex. unfold bind at 1, put at 1 in E1. refine (SO _ _ E1). exact Ex.
      * exfalso; destruct H as [H|H]; [discriminate H|]; apply H; unfold ret in E1; congruence.
    + apply back_gone in E1. destruct E1 as (_ & E1 & _). intros d D. congruence.
    + unfold reveal in E1. apply bind_inv in E1. destruct E1 as (x & u & Ex & E1). apply check_inv in E1. destruct E1 as (y & Ey & E1).
      assert (P : holds details_view pick_item) by (unfold pick_item; held). apply (held_in _ _ _ _ _ P) in Ex.
      assert (Q : holds details_view (set_current VDetails ;;? show_help details_help)) by (held; now apply holds_help). apply (held_in _ _ _ _ _ Q) in E1.
      assert (F := update_from_start _ _ _ _ _ _ _ G Hd x Ex Ey). intros d D. apply F. unfold details_view in E1. congruence.
    + apply back_gone in E1. destruct E1 as (_ & E1 & _). intros d D. congruence.
    + unfold items_lock in E1. apply check_inv in E1. destruct E1 as (x & Ex & E1). apply back_gone in Ex. destruct Ex as (_ & Ex & _).
      assert (Q : holds details_view (menu_lock center)) by (unfold menu_lock, menu_update, prompt_layout; held; now apply holds_help). apply (held_in _ _ _ _ _ Q) in E1.
      intros d D. unfold details_view in E1. congruence.
Qed.
Print Assumptions C86_item_shown_from_start.

(** The text was left with its first column out of sight; revealing the item brings it back. *)
Example C86_example :
  let g := fst (demo_gui (vault_world (b "/v") []) (enter_freddy ++ [Press KEnter; Press KTab; Press KRight; Press KDown; Press KTab])) in
  let p := gui_step toy_crypto latin1 utc forwards (b "/c") (fun t _ => t) (Press KTab) g in
  demo_running g /\ current g = VItems /\ option_map v_ox (view_of g VDetails) = Some 1%Z /\ snd p = Ok true /\ option_map v_ox (view_of (fst p) VDetails) = Some 0%Z.
Proof.
  set (d := demo_gui (vault_world (b "/v") []) (enter_freddy ++ [Press KEnter; Press KTab; Press KRight; Press KDown; Press KTab])). cbv zeta.
  set (p := gui_step toy_crypto latin1 utc forwards (b "/c") (fun t _ => t) (Press KTab) (fst d)).
  assert (E : (snd d, current (fst d), option_map v_ox (view_of (fst d) VDetails), snd p, option_map v_ox (view_of (fst p) VDetails)) = (Ok true, VItems, Some 1%Z, Ok true, Some 0%Z)) by (vm_compute; reflexivity).
  apply pair_eq in E. destruct E as [E E5]. apply pair_eq in E. destruct E as [E E4]. apply pair_eq in E. destruct E as [E E3]. apply pair_eq in E. destruct E as [E1 E2].
  split; [exact (demo_runs _ _ E1)|]. split; [exact E2|]. split; [exact E3|]. split; [exact E4|exact E5].
Qed.

(** Covering an item again is the exception: the column stays if it was scrolled down, too. *)
Theorem C86_covered_from_start_refuted : exists C U tz Y dir center g g' O,
  running C U tz Y dir center g /\ oracles_ok O /\ gui_step C U tz O dir center (Press KTab) g = (g', Ok true) /\
  current g = VDetails /\ current g' = VItems /\ ~ from_start g'.
Proof.
  pose (g := fst (demo_gui (vault_world (b "/v") []) (enter_freddy ++ [Press KEnter; Press KTab; Press KRight; Press KDown]))).
  pose (p := gui_step toy_crypto latin1 utc forwards (b "/c") (fun t _ => t) (Press KTab) g).
  exists toy_crypto, latin1, utc, toy_yaml, (b "/c"), (fun t _ => t), g, (fst p), forwards.
  split; [apply demo_runs; vm_compute; reflexivity|]. split; [exact forwards_ok|].
  assert (E : (snd p, current g, current (fst p), option_map v_ox (view_of (fst p) VDetails)) = (Ok true, VDetails, VItems, Some 1%Z)) by (vm_compute; reflexivity).
  apply pair_eq in E. destruct E as [E E4]. apply pair_eq in E. destruct E as [E E3]. apply pair_eq in E. destruct E as [E1 E2].
  split; [change (p = (fst p, Ok true)); rewrite <- E1; now destruct p|]. split; [exact E2|]. split; [exact E3|].
  intros X. destruct (view_of (fst p) VDetails) as [d|] eqn:D; [|discriminate E4]. destruct (X d D) as [_ X2]. cbn [option_map] in E4. congruence.
Qed.
Print Assumptions C86_covered_from_start_refuted.
