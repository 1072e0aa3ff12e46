(** The states the GUI can be in. *)
From Verif Require Import Base Utf8 GoStrings Json Civil Crypto Path Fs Domain Spec_Domain DomainProof Repos Session SessionProof
  World Config Updater Cli Toy Gui Spec_Gui.
From Verif Require Properties_Session.
From Coq Require Import Sorting.Sorted.

(** ** The menu *)

Lemma code_lt_unique l : forall l', StronglySorted code_lt l -> StronglySorted code_lt l' -> Permutation l l' -> l = l'.
Proof.
  assert (Hirr : forall x, ~ code_lt x x) by (intros x; unfold code_lt; rewrite bytes_ltb_irrefl; discriminate).
  assert (Hasym : forall x y, code_lt x y -> code_lt y x -> False).
  { intros x y H1 H2. apply (Hirr x). unfold code_lt in *. eapply bytes_ltb_trans; eauto. }
  induction l as [|x l IH]; intros l' H1 H2 P; [now apply Permutation_nil in P|].
  destruct l' as [|y l']; [now apply Permutation_sym, Permutation_nil in P|].
  apply StronglySorted_inv in H1, H2. destruct H1 as [S1 F1], H2 as [S2 F2].
  assert (x = y).
  { assert (Hx : In x (y :: l')) by (apply (Permutation_in _ P); now left).
    assert (Hy : In y (x :: l)) by (apply (Permutation_in _ (Permutation_sym P)); now left).
    destruct Hx as [->|Hx]; [reflexivity|]. destruct Hy as [->|Hy]; [reflexivity|].
    rewrite Forall_forall in F1, F2. destruct (Hasym x y); auto. }
  subst y. f_equal. apply IH; auto. now apply Permutation_cons_inv in P.
Qed.

Definition ordered : list category := map (fun c => Cat (fst c) (snd c)) published.

Lemma ordered_sorted : StronglySorted code_lt ordered.
Proof. apply Sorted_StronglySorted; [|unfold ordered, published; repeat constructor].
  intros x y z. unfold code_lt. apply bytes_ltb_trans. Qed.

Lemma ordered_perm : Permutation ordered registry.
Proof.
  unfold ordered. rewrite <- registry_perm_published, map_map.
  rewrite (map_ext _ (fun c => c)); [now rewrite map_id|]. now intros [c n].
Qed.

Lemma sort_ordered reg : Permutation reg registry -> sort_cats reg = ordered.
Proof.
  intros H. apply code_lt_unique; [|apply ordered_sorted|].
  - apply sort_cats_sorted. eapply Permutation_NoDup; [apply Permutation_map, Permutation_sym, H|].
    apply registry_codes_nodup.
  - rewrite sort_cats_perm, H. symmetry. apply ordered_perm.
Qed.

Lemma count_cat_le c tr s : count_items (Some c) tr s <= count_items None tr s.
Proof.
  unfold count_items, count_by. induction (items_list (st_items s)) as [|i l IH]; [reflexivity|]. cbn [filter].
  change (cat_matches None i) with true. destruct (cat_matches (Some c) i), (Bool.eqb (it_trashed i) tr); cbn [andb length]; lia.
Qed.

(** The menu as the code builds it. *)
Lemma filter_of s l : filter (fun e => negb (Nat.eqb (entry_count s e) 0)) (map Of l) =
  map Of (filter (fun c => negb (Nat.eqb (count_items (Some c) false s) 0)) l).
Proof.
  induction l as [|c l IH]; [reflexivity|]. cbn [map filter].
  replace (entry_count s (Of c)) with (count_items (Some c) false s) by reflexivity.
  destruct (Nat.eqb (count_items (Some c) false s) 0); cbn [negb map]; now rewrite IH.
Qed.

Lemma filter_none s l : count_items None false s = 0 -> filter (fun c => negb (Nat.eqb (count_items (Some c) false s) 0)) l = [].
Proof.
  intros H. induction l as [|c l IH]; [reflexivity|]. cbn [filter].
  assert (L := count_cat_le c false s). replace (count_items (Some c) false s) with 0 by lia. exact IH.
Qed.

Lemma all_entries_eq : all_entries = All :: map Of ordered ++ [Trash].
Proof. unfold all_entries, ordered. now rewrite map_map. Qed.

Lemma menu_eq s :
  menu s = (if Nat.eqb (count_items None false s) 0 then []
            else All :: map Of (filter (fun c => negb (Nat.eqb (count_items (Some c) false s) 0)) ordered))
           ++ (if Nat.eqb (count_items None true s) 0 then [] else [Trash]).
Proof.
  unfold menu. rewrite all_entries_eq. generalize ordered. intros l.
  assert (E : forall e l', filter (fun e => negb (Nat.eqb (entry_count s e) 0)) (e :: l') =
    if Nat.eqb (entry_count s e) 0 then filter (fun e => negb (Nat.eqb (entry_count s e) 0)) l'
    else e :: filter (fun e => negb (Nat.eqb (entry_count s e) 0)) l').
  { intros e l'. cbn [filter]. now destruct (Nat.eqb (entry_count s e) 0). }
  rewrite E, filter_app, E, filter_of. clear E.
  replace (entry_count s All) with (count_items None false s) by reflexivity.
  replace (entry_count s Trash) with (count_items None true s) by reflexivity.
  destruct (Nat.eqb_spec (count_items None false s) 0) as [H|H].
  - rewrite (filter_none s l H). reflexivity.
  - reflexivity.
Qed.

(** ** The invariant *)

Section Inv.
Variable C : crypto.
Variable U : unicode.
Variable tz : Z -> Z.
Variable dir : bytes.
Variable center : bytes -> Z -> bytes.
Set Default Proof Using "All".

Definition idx_ok (n : nat) (i : Z) : Prop := (n = 0 /\ i = (-1)%Z) \/ (0 <= i < Z.of_nat n)%Z.

Definition selected_row (g : gui) : option simple_item :=
  if (g_row_idx g <? 0)%Z then None else nth_error (g_rows g) (Z.to_nat (g_row_idx g)).
Definition selected_item (g : gui) : option item :=
  match selected_row g with Some r => get_item (s_uid r) (s_trashed r) (session g) | None => None end.

Definition item_text (mask : bool) (i : option item) : bytes :=
  match i with Some i => join_lines (details_lines tz mask i) | None => [] end.

Definition menu_text (w : Z) (s : state) : bytes := concat (map (entry_line center w s) (menu s)).

Definition closed_menu (g : gui) : Prop :=
  is_unlocked (session g) = false /\ g_cats g = [] /\ g_menu_idx g = (-1)%Z /\ shown g VMenu = Some [].
Definition open_menu (g : gui) : Prop :=
  is_unlocked (session g) = true /\ g_cats g = map entry_category (menu (session g)) /\
  (exists w, shown g VMenu = Some (menu_text w (session g))) /\
  idx_ok (length (menu (session g))) (g_menu_idx g).
Definition no_list (g : gui) : Prop := view_of g VItems = None /\ view_of g VDetails = None.
Definition open_list (mask : bool) (g : gui) : Prop :=
  g_menu_idx g <> (-1)%Z /\
  (exists O, oracles_ok O /\ g_rows g = rows_of U O (g_cats g) (g_menu_idx g) (session g)) /\
  idx_ok (length (g_rows g)) (g_row_idx g) /\
  shown g VItems = Some (concat (map row_line (g_rows g))) /\
  shown g VDetails = Some (item_text mask (selected_item g)).
Definition no_prompt (g : gui) : Prop := view_of g VPrompt = None /\ view_of g VError = None.

Definition mode (g : gui) : Prop :=
  match current g with
  | VPrompt => closed_menu g /\ no_list g /\ view_of g VPrompt <> None /\ view_of g VError = None
  | VError => closed_menu g /\ no_list g /\ view_of g VPrompt = None /\
              exists e, g_error g = Some e /\ shown g VError = Some (err_text e)
  | VMenu => open_menu g /\ no_list g /\ no_prompt g
  | VItems => open_menu g /\ open_list true g /\ no_prompt g
  | VDetails => open_menu g /\ open_list false g /\ no_prompt g /\ (selected_row g <> None) /\ g_item g = selected_item g
  | _ => False
  end.

Record ginv (g : gui) : Prop := {
  gi_reach : reachable C U tz (session g);
  gi_version : view_of g VVersion <> None;
  gi_help : view_of g VHelp <> None;
  gi_mode : mode g;
  gi_origin : forall n v, view_of g n = Some v -> (0 <= v_ox v /\ 0 <= v_oy v)%Z;
}.

(** Running code on a state whose views are known. *)
Ltac ev := cbv beta iota zeta delta [bind check ret get put lift on_app on_vault the_conf on_world on_view try_view set_view delete_view set_current
  put_view vname_eqb set_app set_ui set_cats set_menu_idx set_rows set_row_idx set_item set_help set_error set_checking
  g_app g_ui g_vault g_cats g_menu_idx g_rows g_row_idx g_item g_help g_error g_checking
  ui_w ui_h ui_views ui_cur a_world a_conf a_vault v_w v_h v_text v_cx v_cy v_ox v_oy clear write
  session view_of shown current option_map typed
  menu_update show_help help_update prompt_layout error_layout menu_lock items_lock go_back enter_password close_error
  menu_down menu_up row_down row_up show_overview pick_item details_update details_layout cover reveal items_update items_layout
  open_entry selected_row selected_item].
Ltac go := ev; repeat (match goal with H : ?x = _ |- context [match ?x with _ => _ end] => rewrite H end; ev).

(** Everything but the menu stays. *)
Definition beside_menu (g g' : gui) : Prop :=
  (forall n, n <> VMenu -> view_of g' n = view_of g n) /\ view_of g' VMenu <> None /\ current g' = current g /\ ui_w (g_ui g') = ui_w (g_ui g) /\ ui_h (g_ui g') = ui_h (g_ui g) /\
  g_rows g' = g_rows g /\ g_row_idx g' = g_row_idx g /\ g_item g' = g_item g /\ g_help g' = g_help g /\
  g_error g' = g_error g /\ g_vault g' = g_vault g /\ g_checking g' = g_checking g /\ a_world (g_app g') = a_world (g_app g) /\ a_conf (g_app g') = a_conf (g_app g).

Lemma step_reachable O D o s s' r : oracles_ok O -> reachable C U tz s -> step C U tz O D o s = Ok (s', r) -> reachable C U tz s'.
Proof.
  intros HO (h & r0 & Hh & Hr) H. exists (h ++ [(O, D, o)]), (r0 ++ [r]). split.
  - apply Forall_app. split; [exact Hh|]. constructor; [exact HO|constructor].
  - rewrite Properties_Session.run_app, Hr. cbn [rbind run]. rewrite H. reflexivity.
Qed.

Lemma entry_line_of w s c : entry_line center w s (Of c) = center (count_label (cat_name c) (count_items (Some c) false s)) w ++ nl.
Proof. unfold entry_line, entry_name, entry_count, entry_category, entry_trashed, count_label, nl. reflexivity. Qed.
Lemma entry_line_all w s : entry_line center w s All = center (count_label (b "All") (count_items None false s)) w ++ nl.
Proof. unfold entry_line, entry_name, entry_count, entry_category, entry_trashed, count_label, nl. reflexivity. Qed.
Lemma entry_line_trash w s : entry_line center w s Trash = center (count_label (b "Trashed") (count_items None true s)) w.
Proof. unfold entry_line, entry_name, entry_count, entry_category, entry_trashed, count_label, nl. now rewrite app_nil_r. Qed.

Lemma cat_entries_eq s l : cat_entries s l =
  map (fun c => (c, count_items (Some c) false s)) (filter (fun c => negb (Nat.eqb (count_items (Some c) false s) 0)) l).
Proof.
  unfold cat_entries. induction l as [|c l IH]; [reflexivity|]. cbn [map filter snd].
  destruct (Nat.eqb (count_items (Some c) false s) 0); cbn [negb map]; now rewrite IH.
Qed.

Lemma menu_text_eq w s :
  menu_text w s =
  (if Nat.eqb (count_items None false s) 0 then []
   else join_lines (center (count_label (b "All") (count_items None false s)) w
          :: map (fun e => center (count_label (cat_name (fst e)) (snd e)) w) (cat_entries s ordered)))
  ++ (if Nat.eqb (count_items None true s) 0 then [] else center (count_label (b "Trashed") (count_items None true s)) w).
Proof.
  unfold menu_text. rewrite menu_eq, map_app, concat_app, cat_entries_eq. generalize ordered. intros l.
  apply f_equal2.
  - destruct (Nat.eqb (count_items None false s) 0); [reflexivity|]. unfold join_lines. cbn [map concat].
    rewrite entry_line_all. apply f_equal2; [reflexivity|]. rewrite !map_map. apply f_equal. apply map_ext. intros c. apply entry_line_of.
  - destruct (Nat.eqb (count_items None true s) 0); [reflexivity|]. cbn [map concat]. now rewrite entry_line_trash, app_nil_r.
Qed.

(** For the speed of conversion only. *)
Local Opaque b menu menu_text count_items count_label cat_entries join_lines sort_cats ordered itoa err_text entry_category details_lines help_text get_items get_item is_unlocked rows_of unlock facade_check trim_space.

Lemma categories_same s : let s' := MkState (st_profile s) (st_items s) (st_keys s) (sort_cats (st_reg s)) in
  menu s' = menu s /\ (forall w, menu_text w s' = menu_text w s).
Proof. split; reflexivity. Qed.

(** The menu of an unlocked vault is built from nothing. *)
Lemma menu_update_open g v : reachable C U tz (session g) -> is_unlocked (session g) = true -> g_cats g = [] -> g_menu_idx g = (-1)%Z ->
  view_of g VMenu = Some v -> v_text v = [] ->
  exists g', menu_update center g = (g', Ok true) /\ beside_menu g g' /\ reachable C U tz (session g') /\ open_menu g' /\
    g_menu_idx g' = (match menu (session g') with [] => -1 | _ => 0 end)%Z /\
    (exists v', view_of g' VMenu = Some v' /\ v_w v' = v_w v /\ v_h v' = v_h v /\ v_cx v' = v_cx v /\ v_cy v' = v_cy v /\ v_ox v' = v_ox v /\ v_oy v' = v_oy v) /\
    (st_items (session g') = st_items (session g) /\ st_keys (session g') = st_keys (session g) /\ st_profile (session g') = st_profile (session g)).
Proof.
  intros Hr Hu Hc Hi Hv Ht. destruct g as [[w m s] [W H views cur] va cats mi rows ri it he er ch].
  unfold session, view_of in *. cbn in Hr, Hu, Hc, Hi, Hv. subst cats mi.
  assert (Hreg := inv_reg _ (reachable_inv _ _ _ _ Hr)).
  assert (Hr' : reachable C U tz (MkState (st_profile s) (st_items s) (st_keys s) (sort_cats (st_reg s)))).
  { destruct Hr as (h & r & Hh & Hrun). exists (h ++ [(forwards, MkDisk [] [] (fun _ => false), OpCategories)]), (r ++ [RCats (sort_cats (st_reg s))]).
    split; [apply Forall_app; split; [exact Hh|constructor; [apply forwards_ok|constructor]]|].
    rewrite Properties_Session.run_app, Hrun. reflexivity. }
  assert (E := menu_text_eq (W - 1)%Z s). assert (Em := menu_eq s). assert (Ec := f_equal (map (fun e => Some (fst e))) (cat_entries_eq s ordered)).
  rewrite (map_map (fun c => (c, count_items (Some c) false s)) (fun e => Some (fst e))) in Ec. cbn [fst] in Ec.
  assert (Es := sort_ordered _ Hreg).
  assert (Eo : menu (MkState (st_profile s) (st_items s) (st_keys s) ordered) = menu s) by reflexivity.
  destruct v as [vw vh vt vcx vcy vox voy]. cbn in Ht. subst vt.
  destruct (Nat.eqb (count_items None false s) 0) eqn:Ea; destruct (Nat.eqb (count_items None true s) 0) eqn:Et; go; rewrite ?Es; cbn [Datatypes.app];
    (eexists; split; [reflexivity|]); cbn [Datatypes.app] in E, Em.
  all: split; [repeat split; ev; try reflexivity; try congruence; try (intros []; congruence)|].
  all: rewrite ?Es in Hr'; split; [exact Hr' || exact Hr|].
  all: split; [unfold open_menu; ev; split; [exact Hu|]; split; [|split; [exists (W - 1)%Z|]]|split; [ev|split; [ev; eexists; split; [try reflexivity; exact Hv|repeat split]|repeat split]]].
  all: try (match goal with |- _ = map entry_category (menu ?s') => change (menu s') with (menu s) end;
            rewrite Em, ?Ec; cbn [map Datatypes.app]; rewrite ?map_app, ?map_map, ?app_nil_r; reflexivity).
  all: try (match goal with |- _ = Some (menu_text _ ?s') => change (menu_text (W - 1) s') with (menu_text (W - 1) s) end;
            rewrite E, ?Hv, <- ?app_assoc, ?app_nil_r; reflexivity).
  all: try (match goal with |- idx_ok (length (menu ?s')) _ => change (menu s') with (menu s) end; rewrite Em; unfold idx_ok; cbn [length]; lia).
  all: rewrite ?Eo, Em; reflexivity.
Qed.

(** ** Sizes do not matter *)

Definition same_view (x y : option view) : Prop :=
  match x, y with
  | None, None => True
  | Some v, Some v' => v_text v' = v_text v /\ v_cx v' = v_cx v /\ v_cy v' = v_cy v /\ v_ox v' = v_ox v /\ v_oy v' = v_oy v
  | _, _ => False
  end.

Record resized (g g' : gui) : Prop := {
  rs_app : g_app g' = g_app g; rs_vault : g_vault g' = g_vault g; rs_cats : g_cats g' = g_cats g;
  rs_midx : g_menu_idx g' = g_menu_idx g; rs_rows : g_rows g' = g_rows g; rs_ridx : g_row_idx g' = g_row_idx g;
  rs_item : g_item g' = g_item g; rs_help : g_help g' = g_help g; rs_error : g_error g' = g_error g;
  rs_checking : g_checking g' = g_checking g; rs_cur : current g' = current g;
  rs_w : ui_w (g_ui g') = ui_w (g_ui g); rs_h : ui_h (g_ui g') = ui_h (g_ui g);
  rs_views : forall n, same_view (view_of g n) (view_of g' n);
}.

Lemma same_view_refl x : same_view x x.
Proof. destruct x; cbn; auto. Qed.

Lemma resized_refl g : resized g g.
Proof. constructor; try reflexivity. intros n. apply same_view_refl. Qed.

Lemma resized_trans g1 g2 g3 : resized g1 g2 -> resized g2 g3 -> resized g1 g3.
Proof.
  intros [] []. constructor; try congruence. intros n. specialize (rs_views0 n). specialize (rs_views1 n).
  destruct (view_of g1 n), (view_of g2 n), (view_of g3 n); cbn in *; try tauto.
  destruct rs_views0 as (? & ? & ? & ? & ?), rs_views1 as (? & ? & ? & ? & ?). repeat split; congruence.
Qed.

Lemma resized_shown g g' n : resized g g' -> shown g' n = shown g n.
Proof.
  intros H. assert (E := rs_views _ _ H n). unfold shown. destruct (view_of g n), (view_of g' n); cbn in *; try tauto.
  now rewrite (proj1 E).
Qed.

Lemma resized_none g g' n : resized g g' -> view_of g' n = None <-> view_of g n = None.
Proof.
  intros H. assert (E := rs_views _ _ H n). destruct (view_of g n), (view_of g' n); cbn in *; try tauto. split; discriminate.
Qed.

Lemma resized_session g g' : resized g g' -> session g' = session g.
Proof. intros H. unfold session. now rewrite (rs_app _ _ H). Qed.

Lemma resized_row g g' : resized g g' -> selected_row g' = selected_row g /\ selected_item g' = selected_item g.
Proof.
  intros H. assert (E : selected_row g' = selected_row g) by (unfold selected_row; now rewrite (rs_rows _ _ H), (rs_ridx _ _ H)).
  split; [exact E|]. unfold selected_item. now rewrite E, (resized_session _ _ H).
Qed.

Lemma resized_inv g g' : resized g g' -> ginv g -> ginv g'.
Proof.
  intros R [H1 H2 H3 H4 H5]. assert (S := resized_session _ _ R). assert (N := fun n => resized_none g g' n R).
  assert (Sh := fun n => resized_shown g g' n R). destruct (resized_row _ _ R) as [Er Ei].
  constructor.
  - now rewrite S.
  - now rewrite N.
  - now rewrite N.
  - unfold mode, closed_menu, open_menu, no_list, open_list, no_prompt in *. rewrite (rs_cur _ _ R).
    destruct (current g); rewrite ?S, ?Sh, ?N, ?Er, ?Ei, ?(rs_cats _ _ R), ?(rs_midx _ _ R), ?(rs_rows _ _ R), ?(rs_ridx _ _ R), ?(rs_error _ _ R), ?(rs_item _ _ R); exact H4.
  - intros n v Hv. assert (E := rs_views _ _ R n). rewrite Hv in E. destruct (view_of g n) as [v0|] eqn:Hg; [|destruct E].
    destruct E as (_ & _ & _ & -> & ->). now apply (H5 n).
Qed.

Definition roomy (g : gui) : Prop := (6 <= ui_w (g_ui g) /\ 10 <= ui_h (g_ui g))%Z.

Lemma set_view_old n x0 y0 x1 y1 g v : view_of g n = Some v ->
  (set_view n x0 y0 x1 y1 g = (g, Ok Bad) /\ (x1 <= x0 \/ y1 <= y0)%Z) \/
  exists g', set_view n x0 y0 x1 y1 g = (g', Ok Old) /\ resized g g'.
Proof.
  intros Hv. unfold set_view. destruct ((x1 <=? x0)%Z || (y1 <=? y0)%Z) eqn:E; [left; split; [reflexivity|lia]|right].
  unfold view_of in Hv. rewrite Hv. eexists. split; [reflexivity|]. destruct g as [? [W H views cur] ? ? ? ? ? ? ? ? ?]. cbn in Hv.
  constructor; try reflexivity. intros m. ev. destruct m, n; cbn; rewrite ?Hv; cbn; auto; apply same_view_refl.
Qed.

Lemma layout_ok g : view_of g VVersion <> None -> view_of g VHelp <> None -> view_of g VMenu <> None ->
  exists g' ok, layout center g = (g', Ok ok) /\ resized g g' /\ (ok = false -> ~ roomy g).
Proof.
  intros H1 H2 H3.
  destruct (view_of g VVersion) as [v1|] eqn:E1; [|congruence]. destruct (view_of g VHelp) as [v2|] eqn:E2; [|congruence].
  destruct (view_of g VMenu) as [v3|] eqn:E3; [|congruence]. clear H1 H2 H3.
  unfold layout, check at 1. unfold bind at 1. unfold version_layout, bind, get. cbn [fst snd].
  destruct (set_view_old VVersion 0 0 (ui_w (g_ui g) - 1) 2 g v1 E1) as [[-> B]|(g1 & -> & R1)]; cbn [ret].
  { exists g, false. split; [reflexivity|]. split; [apply resized_refl|]. unfold roomy. lia. }
  unfold check at 1, bind, help_layout, bind, get.
  assert (E2' := rs_views _ _ R1 VHelp). rewrite E2 in E2'. destruct (view_of g1 VHelp) as [v2'|] eqn:F2; [|destruct E2'].
  destruct (set_view_old VHelp 0 (ui_h (g_ui g1) - 3) (ui_w (g_ui g1) - 1) (ui_h (g_ui g1) - 1) g1 v2' F2) as [[-> B]|(g2 & -> & R2)]; cbn [ret].
  { exists g1, false. split; [reflexivity|]. split; [exact R1|]. unfold roomy. rewrite (rs_w _ _ R1), (rs_h _ _ R1) in B. lia. }
  unfold menu_layout, bind, get. assert (R := resized_trans _ _ _ R1 R2).
  assert (E3' := rs_views _ _ R VMenu). rewrite E3 in E3'. destruct (view_of g2 VMenu) as [v3'|] eqn:F3; [|destruct E3'].
  destruct (set_view_old VMenu 0 3 (ui_w (g_ui g2) - 1) (ui_h (g_ui g2) - 4) g2 v3' F3) as [[-> B]|(g3 & -> & R3)]; cbn [ret].
  { exists g2, false. split; [reflexivity|]. split; [exact R|]. unfold roomy. rewrite (rs_w _ _ R), (rs_h _ _ R) in B. lia. }
  exists g3, true. split; [reflexivity|]. split; [eapply resized_trans; eauto|discriminate].
Qed.

(** ** Moving within a view *)

Definition nonneg (v : view) : Prop := (0 <= v_ox v /\ 0 <= v_oy v)%Z.
Definition moves (f : view -> option view) : Prop :=
  forall v, nonneg v -> exists v', f v = Some v' /\ v_text v' = v_text v /\ nonneg v'.

Ltac view_cases := intros v [H1 H2];
  repeat match goal with |- context [if ?c then _ else _] => destruct c eqn:? end; try lia;
  (eexists; split; [reflexivity|]; split; [reflexivity|]; unfold nonneg; cbn; lia).

Lemma line_down_moves : moves line_down.
Proof. unfold moves, line_down, set_cursor, set_origin. view_cases. Qed.
Lemma line_up_moves : moves line_up.
Proof. unfold moves, line_up, set_cursor, set_origin. view_cases. Qed.
Lemma reset_cursor_moves : moves reset_cursor.
Proof. unfold moves, reset_cursor, set_cursor, set_origin. view_cases. Qed.
Lemma reset_origin_moves : moves reset_origin.
Proof. unfold moves, reset_origin, set_origin. view_cases. Qed.
Lemma scroll_down_moves : moves scroll_down.
Proof. unfold moves, scroll_down, set_origin. view_cases. Qed.
Lemma scroll_up_moves : moves scroll_up.
Proof. unfold moves, scroll_up, set_origin. view_cases. Qed.
Lemma scroll_right_moves : moves scroll_right.
Proof. unfold moves, scroll_right, set_origin. view_cases. Qed.
Lemma scroll_left_moves : moves scroll_left.
Proof. unfold moves, scroll_left, set_origin. view_cases. Qed.

(** ** The same but for sizes and cursors *)

Record look (g g' : gui) : Prop := {
  lk_app : g_app g' = g_app g; lk_vault : g_vault g' = g_vault g; lk_cats : g_cats g' = g_cats g;
  lk_midx : g_menu_idx g' = g_menu_idx g; lk_rows : g_rows g' = g_rows g; lk_ridx : g_row_idx g' = g_row_idx g;
  lk_item : g_item g' = g_item g; lk_help : g_help g' = g_help g; lk_error : g_error g' = g_error g;
  lk_checking : g_checking g' = g_checking g; lk_cur : current g' = current g;
  lk_w : ui_w (g_ui g') = ui_w (g_ui g); lk_h : ui_h (g_ui g') = ui_h (g_ui g);
  lk_shown : forall n, shown g' n = shown g n;
}.

Lemma resized_look g g' : resized g g' -> look g g'.
Proof. intros R. destruct R eqn:E. constructor; try assumption. intros n. now apply resized_shown. Qed.

Lemma look_refl g : look g g.
Proof. constructor; reflexivity. Qed.
Lemma look_trans g1 g2 g3 : look g1 g2 -> look g2 g3 -> look g1 g3.
Proof. intros [] []. constructor; intros; congruence. Qed.

Lemma shown_none g g' n : shown g' n = shown g n -> view_of g' n = None <-> view_of g n = None.
Proof. unfold shown. destruct (view_of g n), (view_of g' n); cbn; split; congruence. Qed.

Lemma mode_look g g' : look g g' -> mode g -> mode g'.
Proof.
  intros R H4. assert (S : session g' = session g) by (unfold session; now rewrite (lk_app _ _ R)).
  assert (N := fun n => shown_none g g' n (lk_shown _ _ R n)). assert (Sh := lk_shown _ _ R).
  assert (Er : selected_row g' = selected_row g) by (unfold selected_row; now rewrite (lk_rows _ _ R), (lk_ridx _ _ R)).
  assert (Ei : selected_item g' = selected_item g) by (unfold selected_item; now rewrite Er, S).
  unfold mode, closed_menu, open_menu, no_list, open_list, no_prompt in *. rewrite (lk_cur _ _ R).
    destruct (current g); rewrite ?S, ?Sh, ?N, ?Er, ?Ei, ?(lk_cats _ _ R), ?(lk_midx _ _ R), ?(lk_rows _ _ R), ?(lk_ridx _ _ R), ?(lk_error _ _ R), ?(lk_item _ _ R); exact H4.
Qed.

Definition origins (g : gui) : Prop := forall n v, view_of g n = Some v -> nonneg v.

(** One view is changed without its text. *)
Lemma try_view_moves n f g v : moves f -> view_of g n = Some v -> origins g ->
  exists g', try_view n f g = (g', Ok true) /\ look g g' /\ origins g' /\ (forall m, m <> n -> view_of g' m = view_of g m) /\
    exists v', f v = Some v' /\ view_of g' n = Some v' /\ v_text v' = v_text v.
Proof.
  intros Hm Hv Ho. destruct (Hm v (Ho n v Hv)) as (v' & Hf & Ht & Hn). unfold try_view. unfold view_of in Hv. rewrite Hv, Hf.
  eexists. split; [reflexivity|]. destruct g as [? [W H views cur] ? ? ? ? ? ? ? ? ?]. cbn in Hv.
  assert (E : forall m, m <> n -> vname_eqb m n = false) by (intros m Hmn; destruct m, n; congruence || reflexivity).
  assert (E' : vname_eqb n n = true) by (destruct n; reflexivity).
  split; [|split; [|split]].
  - constructor; try reflexivity. intros m. unfold shown, view_of. cbn.
    destruct (vname_eqb m n) eqn:Em; [|reflexivity].
    assert (m = n) as -> by (destruct m, n; try discriminate; reflexivity). rewrite Hv. cbn. now rewrite Ht.
  - intros m w. unfold view_of. cbn. destruct (vname_eqb m n) eqn:Em; [intros X; assert (w = v') as -> by congruence; exact Hn|intros X; exact (Ho m w X)].
  - intros m Hmn. unfold view_of. cbn. now rewrite E.
  - exists v'. split; [reflexivity|]. split; [|exact Ht]. unfold view_of. cbn. now rewrite E'.
Qed.

Lemma join_rows rows : join_lines (map (fun r => match s_title r with [] => b "<NO TITLE>" | c :: l => c :: l end) rows) = concat (map row_line rows).
Proof. with_strategy transparent [join_lines] unfold join_lines. rewrite map_map. reflexivity. Qed.

(** All but the list of items and the details stay. *)
Record beside_list (g g' : gui) : Prop := {
  bl_app : g_app g' = g_app g; bl_vault : g_vault g' = g_vault g; bl_cats : g_cats g' = g_cats g;
  bl_midx : g_menu_idx g' = g_menu_idx g; bl_rows : g_rows g' = g_rows g;
  bl_help : g_help g' = g_help g; bl_error : g_error g' = g_error g;
  bl_checking : g_checking g' = g_checking g; bl_cur : current g' = current g;
  bl_w : ui_w (g_ui g') = ui_w (g_ui g); bl_h : ui_h (g_ui g') = ui_h (g_ui g);
  bl_views : forall n, n <> VItems -> n <> VDetails -> view_of g' n = view_of g n;
}.

(** Showing the selected item. *)
Lemma details_run mask g d : view_of g VDetails = Some d -> nonneg d ->
  exists g', (pick_item ;;; details_update tz mask)%st g =
     match selected_row g with None => (g, Panic) | Some _ => (g', Ok true) end /\
    beside_list g g' /\ g_row_idx g' = g_row_idx g /\ g_item g' = selected_item g /\
    view_of g' VItems = view_of g VItems /\
    exists d', view_of g' VDetails = Some d' /\ nonneg d' /\ v_text d' = item_text mask (selected_item g).
Proof.
  intros Hd Hn. destruct g as [[w m s] [W H views cur] va cats mi rows ri it he er ch]. unfold view_of in Hd. cbn in Hd.
  destruct (reset_origin_moves (MkView (v_w d) (v_h d) [] (v_cx d) (v_cy d) (v_ox d) (v_oy d)) Hn) as (d1 & R1 & R2 & R3).
  destruct d as [dw dh dt dcx dcy dox doy]. cbn [v_w v_h v_cx v_cy v_ox v_oy] in R1. destruct d1 as [ew eh et ecx ecy eox eoy]. cbn in R2. subst et.
  go. destruct (ri <? 0)%Z; ev.
  { exists (MkGui (MkApp w m s) (MkUi W H (fun n => if vname_eqb n VDetails then Some (MkView 0 0 [] 0 0 0 0) else views n) cur) va cats mi rows ri None he er ch).
    split; [reflexivity|]. split; [constructor; try reflexivity; intros [] ? ?; ev; congruence|]. repeat split. eexists. split; [reflexivity|]. split; [unfold nonneg; cbn; lia|reflexivity]. }
  destruct (nth_error rows (Z.to_nat ri)) as [r|]; ev.
  2: { exists (MkGui (MkApp w m s) (MkUi W H (fun n => if vname_eqb n VDetails then Some (MkView 0 0 [] 0 0 0 0) else views n) cur) va cats mi rows ri None he er ch).
    split; [reflexivity|]. split; [constructor; try reflexivity; intros [] ? ?; ev; congruence|]. repeat split. eexists. split; [reflexivity|]. split; [unfold nonneg; cbn; lia|reflexivity]. }
  destruct r as [rc rt rr ru]. ev. cbn [s_uid s_trashed]. go.
  destruct (get_item ru rr s) as [i|]; go; (eexists; split; [reflexivity|]).
  all: split; [constructor; try reflexivity; intros [] ? ?; ev; congruence|].
  all: ev; split; [reflexivity|split; [reflexivity|split; [reflexivity|eexists; split; [reflexivity|split; [exact R3|reflexivity]]]]].
Qed.

Lemma beside_refl g : beside_list g g.
Proof. constructor; reflexivity. Qed.
Lemma beside_trans g1 g2 g3 : beside_list g1 g2 -> beside_list g2 g3 -> beside_list g1 g3.
Proof. intros [] []. constructor; try congruence. intros n A B. rewrite bl_views1, bl_views0; auto. Qed.

Lemma bind_ok {A B} (m : gact A) (k : A -> gact B) g g' x : m g = (g', Ok x) -> bind m k g = k x g'.
Proof. unfold bind. now intros ->. Qed.
Lemma check_ok (m k : gact bool) g g' : m g = (g', Ok true) -> check m k g = k g'.
Proof. unfold check, bind. now intros ->. Qed.
Lemma check_false (m k : gact bool) g g' : m g = (g', Ok false) -> check m k g = (g', Ok false).
Proof. unfold check, bind. now intros ->. Qed.

Definition sv (n : vname) (v : view) (g : gui) : gui := set_ui (put_view n (Some v) (g_ui g)) g.
Lemma view_sv n v g m : view_of (sv n v g) m = if vname_eqb m n then Some v else view_of g m.
Proof. reflexivity. Qed.
Lemma on_view_sv n f g v : view_of g n = Some v -> on_view n f g = (sv n (f v) g, Ok true).
Proof. unfold on_view, view_of. now intros ->. Qed.
Lemma try_view_sv n f g v v' : view_of g n = Some v -> f v = Some v' -> try_view n f g = (sv n v' g, Ok true).
Proof. unfold try_view, view_of. now intros -> ->. Qed.
Lemma try_view_none n f g : view_of g n = None -> try_view n f g = (g, Ok false).
Proof. unfold try_view, view_of. now intros ->. Qed.

(** Picking the selected item when there are no details on the screen. *)
Lemma overview_none g r : selected_row g = Some r -> view_of g VDetails = None ->
  show_overview tz g = (set_item (selected_item g) g, Ok false).
Proof.
  intros Hr Hd. unfold show_overview. assert (E : pick_item g = (set_item (selected_item g) g, Ok tt)).
  { unfold pick_item, get, bind, put. unfold selected_item. rewrite Hr. unfold selected_row in Hr. rewrite Hr. reflexivity. }
  rewrite (bind_ok _ _ _ _ _ E). unfold details_update. unfold get at 1. unfold bind at 1.
  apply check_false. apply try_view_none. exact Hd.
Qed.

(** Writing the list of items anew. *)
Lemma items_update_run g v : view_of g VItems = Some v -> origins g ->
  exists g' ok, items_update tz g = (g', Ok ok) /\ beside_list g g' /\ origins g' /\
    g_row_idx g' = (match g_rows g with [] => -1 | _ => 0 end)%Z /\
    (exists v', view_of g' VItems = Some v' /\ v_text v' = concat (map row_line (g_rows g)) /\ (v_oy v = 0 /\ 0 < v_w v /\ 0 < v_h v /\ 0 <= v_cx v < v_w v -> v_cy v' = 0 /\ v_oy v' = 0 /\ v_w v' = v_w v /\ v_h v' = v_h v /\ v_cx v' = v_cx v)%Z) /\
    match view_of g VDetails with
    | None => view_of g' VDetails = None
    | Some d => ok = true /\ exists d', view_of g' VDetails = Some d' /\
        match g_rows g with [] => d' = d | _ => v_text d' = item_text true (selected_item g') /\ g_item g' = selected_item g' end
    end.
Proof.
  intros Hv Ho. destruct (reset_cursor_moves v (Ho _ _ Hv)) as (v1 & R1 & R2 & R3).
  assert (R4 : (v_oy v = 0 /\ 0 < v_w v /\ 0 < v_h v /\ 0 <= v_cx v < v_w v -> v_cy v1 = 0 /\ v_oy v1 = 0 /\ v_w v1 = v_w v /\ v_h v1 = v_h v /\ v_cx v1 = v_cx v)%Z).
  { intros P. unfold reset_cursor, set_cursor in R1.
    replace ((v_cx v <? 0)%Z || (v_w v <=? v_cx v)%Z || (0 <? 0)%Z || (v_h v <=? 0)%Z) with false in R1 by lia.
    assert (v1 = MkView (v_w v) (v_h v) (v_text v) (v_cx v) 0 (v_ox v) (v_oy v)) as -> by congruence. cbn. lia. }
  set (g1 := sv VItems (clear v1) (sv VItems v1 (set_row_idx (-1)%Z g))).
  assert (E1 : items_update tz g = (match g_rows g with [] => ret true | _ =>
          check (on_view VItems (write (join_lines (map (fun r => match s_title r with [] => b "<NO TITLE>" | t => t end) (g_rows g)))))
          (bind (put (set_row_idx 0%Z)) (fun _ => show_overview tz)) end) g1).
  { unfold items_update. unfold get at 1. unfold bind at 1. unfold view_of in Hv. rewrite Hv. unfold put at 1. unfold bind at 1.
    rewrite (check_ok _ _ _ _ (try_view_sv VItems reset_cursor (set_row_idx (-1)%Z g) v v1 Hv R1)).
    rewrite (check_ok _ _ _ _ (on_view_sv VItems clear (sv VItems v1 (set_row_idx (-1)%Z g)) v1 eq_refl)). fold g1.
    unfold get, bind. reflexivity. }
  assert (V1 : view_of g1 VItems = Some (clear v1)) by reflexivity.
  assert (B1 : beside_list g g1) by (constructor; try reflexivity; intros [] ? ?; reflexivity || congruence).
  assert (D1 : view_of g1 VDetails = view_of g VDetails) by reflexivity.
  assert (O1 : origins g1).
  { intros n w. unfold g1. rewrite !view_sv. destruct (vname_eqb n VItems); [intros X; assert (w = clear v1) as -> by congruence; exact R3|apply Ho]. }
  rewrite E1. destruct (g_rows g) as [|r0 rest] eqn:Er.
  - exists g1, true. split; [reflexivity|]. split; [exact B1|]. split; [exact O1|]. split; [reflexivity|]. split.
    + exists (clear v1). split; [reflexivity|]. split; [reflexivity|]. exact R4.
    + rewrite D1. destruct (view_of g VDetails) as [d|]; [|reflexivity]. split; [reflexivity|]. eauto.
  - rewrite <- Er in *. rewrite join_rows. clear E1.
    set (v2 := write (concat (map row_line (g_rows g))) (clear v1)).
    set (g2 := set_row_idx 0%Z (sv VItems v2 g1)).
    rewrite (check_ok _ _ _ _ (on_view_sv VItems (write (concat (map row_line (g_rows g)))) g1 (clear v1) V1)). fold v2.
    change (bind (put (set_row_idx 0%Z)) (fun _ => show_overview tz) (sv VItems v2 g1)) with (show_overview tz g2).
    assert (B2 : beside_list g g2) by (constructor; try reflexivity; intros [] ? ?; reflexivity || congruence).
    assert (S2 : selected_row g2 = Some r0).
    { unfold selected_row. change (g_row_idx g2) with 0%Z. change (g_rows g2) with (g_rows g). rewrite Er. reflexivity. }
    assert (D2 : view_of g2 VDetails = view_of g VDetails) by reflexivity.
    assert (X2 : view_of g2 VItems = Some v2) by reflexivity.
    assert (I2 : g_row_idx g2 = 0%Z) by reflexivity.
    assert (O2 : origins g2).
    { intros n w. unfold g2. change (view_of (set_row_idx 0%Z (sv VItems v2 g1)) n) with (view_of (sv VItems v2 g1) n). rewrite view_sv.
      destruct (vname_eqb n VItems); [intros X; assert (w = v2) as -> by congruence; exact R3|apply O1]. }
    clearbody g2. clear B1 V1 D1 O1. clearbody g1. clear g1. destruct (view_of g VDetails) as [d|] eqn:Ed.
    + destruct (details_run true g2 d D2 (O2 _ _ D2)) as (g3 & E3 & B3 & I3 & T3 & V3 & d' & F1 & F2 & F3). rewrite S2 in E3.
      exists g3, true. split; [exact E3|]. split; [eapply beside_trans; eauto|]. split.
      { intros n w Hw. destruct n; try (rewrite (bl_views _ _ B3) in Hw by discriminate; exact (O2 _ _ Hw)).
        - rewrite V3 in Hw. exact (O2 _ _ Hw).
        - assert (w = d') as -> by congruence. exact F2. }
      split; [rewrite I3, I2; destruct (g_rows g); [discriminate Er|reflexivity]|]. split; [rewrite V3; exists v2; split; [exact X2|split; [reflexivity|exact R4]]|].
      split; [reflexivity|]. exists d'. split; [exact F1|].
      assert (Es : selected_item g3 = selected_item g2).
      { unfold selected_item, selected_row, session. now rewrite I3, (bl_rows _ _ B3), (bl_app _ _ B3). }
      rewrite Es. destruct (g_rows g); [discriminate Er|]. auto.
    + rewrite (overview_none g2 r0 S2 D2). eexists _, _. split; [reflexivity|].
      split; [constructor; destruct B2; assumption|]. split; [exact O2|]. split; [exact I2|]. split; [|exact D2].
      exists v2. split; [exact X2|]. split; [reflexivity|]. exact R4.
Qed.

(** ** The handlers *)

Definition scur (n : vname) (g : gui) : gui := set_ui (MkUi (ui_w (g_ui g)) (ui_h (g_ui g)) (ui_views (g_ui g)) n) g.
Lemma set_current_run n g v : view_of g n = Some v -> set_current n g = (scur n g, Ok true).
Proof. unfold set_current, view_of. now intros ->. Qed.
Lemma set_view_new n x0 y0 x1 y1 g : view_of g n = None -> ((x1 <=? x0) || (y1 <=? y0))%Z = false ->
  set_view n x0 y0 x1 y1 g = (sv n (MkView (x1 - x0 - 1) (y1 - y0 - 1) [] 0 0 0 0) g, Ok New).
Proof. unfold set_view, view_of. now intros -> ->. Qed.
Lemma set_view_bad n x0 y0 x1 y1 g : ((x1 <=? x0) || (y1 <=? y0))%Z = true -> set_view n x0 y0 x1 y1 g = (g, Ok Bad).
Proof. unfold set_view. now intros ->. Qed.
Lemma show_help_run h g v : view_of g VHelp = Some v -> show_help h g = (sv VHelp (write (help_text h) (clear v)) (set_help h g), Ok true).
Proof. intros Hv. unfold show_help, put, bind, help_update, get, bind. exact (on_view_sv VHelp (fun v => write (help_text h) (clear v)) (set_help h g) v Hv). Qed.
Lemma origins_sv n v g : origins g -> nonneg v -> origins (sv n v g).
Proof. intros H Hv m w. rewrite view_sv. destruct (vname_eqb m n); [intros X; assert (w = v) as -> by congruence; exact Hv|apply H]. Qed.

Lemma roomy_dec g : roomy g \/ ~ roomy g.
Proof. unfold roomy. lia. Qed.

Lemma half_small w : (w < 6)%Z -> ((w - 2) ÷ 2 <= 1)%Z.
Proof. intros H. exact (Z.quot_le_mono (w - 2) 3 2 ltac:(lia) ltac:(lia)). Qed.
Lemma half_big w : (6 <= w)%Z -> (2 <= (w - 2) ÷ 2 /\ (w - 2) ÷ 2 + 1 < w - 2)%Z.
Proof. intros H. rewrite Z.quot_div_nonneg by lia. pose proof (Z.div_mod (w - 2) 2). pose proof (Z.mod_pos_bound (w - 2) 2). lia. Qed.

Lemma open_entry_small O g : g_menu_idx g <> (-1)%Z -> ~ roomy g -> open_entry U tz O g = (g, Ok false).
Proof.
  intros Hi Hr. unfold open_entry. unfold get at 1. unfold bind at 1. replace (g_menu_idx g =? -1)%Z with false by lia.
  apply check_false. unfold items_layout. unfold get, bind at 1. erewrite bind_ok; [|apply set_view_bad]; [reflexivity|].
  unfold roomy in Hr. assert (H := half_small (ui_w (g_ui g))). lia.
Qed.

Lemma open_entry_run O g : ginv g -> current g = VMenu -> g_menu_idx g <> (-1)%Z -> roomy g ->
  exists g', open_entry U tz O g = (g', Ok true) /\ current g' = VItems /\ g_app g' = g_app g /\ g_cats g' = g_cats g /\
    g_menu_idx g' = g_menu_idx g /\ g_vault g' = g_vault g /\ g_error g' = g_error g /\ g_checking g' = g_checking g /\ ui_w (g_ui g') = ui_w (g_ui g) /\ ui_h (g_ui g') = ui_h (g_ui g) /\
    g_rows g' = rows_of U O (g_cats g) (g_menu_idx g) (session g) /\
    g_row_idx g' = (match g_rows g' with [] => -1 | _ => 0 end)%Z /\ origins g' /\
    (exists v, view_of g' VItems = Some v /\ v_text v = concat (map row_line (g_rows g')) /\
       (8 <= ui_w (g_ui g) -> 11 <= ui_h (g_ui g) -> v_cy v = 0 /\ v_oy v = 0 /\ v_cx v = 0 /\ v_w v = (ui_w (g_ui g) - 2) ÷ 2 - 2 /\ v_h v = ui_h (g_ui g) - 10))%Z /\
    shown g' VDetails = Some (item_text true (selected_item g')) /\ shown g' VHelp = Some (help_text items_help) /\
    (forall n, n <> VItems -> n <> VDetails -> n <> VHelp -> view_of g' n = view_of g n).
Proof.
  intros G Hc Hi Hr. assert (M := gi_mode _ G). unfold mode in M. rewrite Hc in M. destruct M as (M1 & [N1 N2] & M3).
  assert (Ho : origins g) by exact (gi_origin _ G).
  assert (Hh := gi_help _ G). destruct (view_of g VHelp) as [hv|] eqn:Eh; [|congruence]. clear Hh.
  unfold roomy in Hr. destruct (half_big (ui_w (g_ui g)) ltac:(lia)) as [Hb1 Hb2].
  unfold open_entry. unfold get at 1. unfold bind at 1. replace (g_menu_idx g =? -1)%Z with false by lia.
  (* the new list with the old rows *)
  set (vi := MkView ((ui_w (g_ui g) - 2) ÷ 2 - 1 - 1) (ui_h (g_ui g) - 5 - 4 - 1) [] 0 0 0 0).
  set (g1 := sv VItems vi g).
  assert (Ho1 : origins g1) by (apply origins_sv; [exact Ho|unfold nonneg; cbn; lia]).
  destruct (items_update_run g1 vi eq_refl Ho1) as (g2 & ok2 & E2 & B2 & O2 & I2 & (v2 & V2 & T2 & P2) & D2).
  change (view_of g1 VDetails) with (view_of g VDetails) in D2. rewrite N2 in D2.
  set (vd := MkView ((ui_w (g_ui g2) - 2) - ((ui_w (g_ui g2) - 2) ÷ 2 + 1) - 1) (ui_h (g_ui g2) - 5 - 4 - 1) [] 0 0 0 0).
  set (g3 := scur VItems (sv VDetails vd g2)).
  assert (H3 : view_of g3 VHelp = Some hv).
  { transitivity (view_of g2 VHelp); [reflexivity|]. rewrite (bl_views _ _ B2) by discriminate. exact Eh. }
  set (g4 := sv VHelp (write (help_text items_help) (clear hv)) (set_help items_help g3)).
  assert (E4 : items_layout tz g = (g4, Ok true)).
  { unfold items_layout. unfold get at 1. unfold bind at 1.
    erewrite bind_ok; [|apply set_view_new; [exact N1|lia]]. fold vi. fold g1. cbv beta iota.
    erewrite bind_ok; [|exact E2].
    assert (Ed : details_layout g2 = (sv VDetails vd g2, Ok true)).
    { unfold details_layout, get. unfold bind at 1. erewrite bind_ok; [|apply set_view_new; [exact D2|]].
      - reflexivity.
      - rewrite (bl_w _ _ B2), (bl_h _ _ B2). change (ui_w (g_ui g1)) with (ui_w (g_ui g)). change (ui_h (g_ui g1)) with (ui_h (g_ui g)). lia. }
    rewrite (check_ok _ _ _ _ Ed).
    rewrite (check_ok _ _ _ _ (set_current_run VItems (sv VDetails vd g2) v2 V2)). fold g3. apply show_help_run. exact H3. }
  rewrite (check_ok _ _ _ _ E4). unfold get at 1. unfold bind at 1. unfold get at 1. unfold bind at 1. unfold put, bind.
  assert (A4 : g_app g4 = g_app g) by (transitivity (g_app g2); [reflexivity|rewrite (bl_app _ _ B2); reflexivity]).
  assert (C4 : g_cats g4 = g_cats g) by (transitivity (g_cats g2); [reflexivity|rewrite (bl_cats _ _ B2); reflexivity]).
  assert (M4 : g_menu_idx g4 = g_menu_idx g) by (transitivity (g_menu_idx g2); [reflexivity|rewrite (bl_midx _ _ B2); reflexivity]).
  assert (Va4 : g_vault g4 = g_vault g) by (transitivity (g_vault g2); [reflexivity|rewrite (bl_vault _ _ B2); reflexivity]).
  assert (Er4 : g_error g4 = g_error g) by (transitivity (g_error g2); [reflexivity|rewrite (bl_error _ _ B2); reflexivity]).
  assert (Ch4 : g_checking g4 = g_checking g) by (transitivity (g_checking g2); [reflexivity|rewrite (bl_checking _ _ B2); reflexivity]).
  assert (W4 : ui_w (g_ui g4) = ui_w (g_ui g)) by (transitivity (ui_w (g_ui g2)); [reflexivity|rewrite (bl_w _ _ B2); reflexivity]).
  assert (H4 : ui_h (g_ui g4) = ui_h (g_ui g)) by (transitivity (ui_h (g_ui g2)); [reflexivity|rewrite (bl_h _ _ B2); reflexivity]).
  rewrite A4, C4. set (rows := rows_of U O (g_cats g) (g_menu_idx g) (a_vault (g_app g))).
  set (g5 := set_rows rows g4).
  assert (Ho5 : origins g5).
  { change (origins g4). apply origins_sv; [|exact (Ho _ _ Eh)].
    intros n w Hw. change (view_of (sv VDetails vd g2) n = Some w) in Hw. revert Hw. apply origins_sv; [exact O2|unfold nonneg; cbn; lia]. }
  assert (V5 : view_of g5 VItems = Some v2) by exact V2.
  destruct (items_update_run g5 v2 V5 Ho5) as (g6 & ok6 & E6 & B6 & O6 & I6 & (v6 & V6 & T6 & P6) & D6).
  change (view_of g5 VDetails) with (Some vd) in D6. cbv beta iota in D6. destruct D6 as (-> & d6 & D6 & D6').
  change (g_rows g5) with rows in *. exists g6. split; [exact E6|].
  assert (Rw : g_rows g6 = rows) by exact (bl_rows _ _ B6).
  split; [rewrite (bl_cur _ _ B6); reflexivity|]. split; [rewrite (bl_app _ _ B6); exact A4|]. split; [rewrite (bl_cats _ _ B6); exact C4|].
  split; [rewrite (bl_midx _ _ B6); exact M4|]. split; [rewrite (bl_vault _ _ B6); exact Va4|]. split; [rewrite (bl_error _ _ B6); exact Er4|].
  split; [rewrite (bl_checking _ _ B6); exact Ch4|]. split; [rewrite (bl_w _ _ B6); exact W4|]. split; [rewrite (bl_h _ _ B6); exact H4|].
  split; [exact Rw|]. split; [rewrite I6, Rw; reflexivity|]. split; [exact O6|]. split; [|split; [|split]].
  - exists v6. split; [exact V6|]. split; [now rewrite T6, Rw|]. intros L1 L2.
    assert (L3 : (3 <= (ui_w (g_ui g) - 2) ÷ 2)%Z) by exact (Z.quot_le_mono 6 (ui_w (g_ui g) - 2) 2 ltac:(lia) ltac:(lia)).
    destruct P2 as (Q1 & Q2 & Q3 & Q4 & Q5); [cbn; lia|]. cbn in Q3, Q4, Q5.
    destruct P6 as (R1 & R2 & R3 & R4 & R5); lia.
  - unfold shown. rewrite D6. cbn [option_map]. f_equal. destruct rows eqn:Erows.
    + subst d6. unfold selected_item, selected_row. rewrite I6. reflexivity.
    + apply D6'.
  - unfold shown. rewrite (bl_views _ _ B6) by discriminate. reflexivity.
  - intros n X1 X2 X3. rewrite (bl_views _ _ B6) by assumption.
    transitivity (view_of g2 n); [destruct n; try reflexivity; congruence|]. rewrite (bl_views _ _ B2) by assumption.
    destruct n; try reflexivity; congruence.
Qed.

Lemma selected_of g g' : g_rows g' = g_rows g -> g_row_idx g' = g_row_idx g -> session g' = session g ->
  selected_row g' = selected_row g /\ selected_item g' = selected_item g.
Proof. intros H1 H2 H3. unfold selected_item, selected_row. now rewrite H1, H2, H3. Qed.

Lemma idx_selected g : idx_ok (length (g_rows g)) (g_row_idx g) -> g_rows g <> [] -> exists r, selected_row g = Some r.
Proof.
  unfold idx_ok, selected_row. intros [[H _]|H] Hn; [destruct (g_rows g); [congruence|discriminate H]|].
  destruct (g_row_idx g <? 0)%Z eqn:E; [lia|]. destruct (nth_error (g_rows g) (Z.to_nat (g_row_idx g))) eqn:F; [eauto|].
  apply nth_error_None in F. lia.
Qed.

Lemma no_rows_selected g : g_rows g = [] -> selected_row g = None.
Proof. unfold selected_row. intros ->. destruct (g_row_idx g <? 0)%Z; [reflexivity|]. now destruct (Z.to_nat (g_row_idx g)). Qed.

(** What an open list needs. *)
Lemma list_ginv (mask : bool) g g' : ginv g -> current g = (if mask then VItems else VDetails) -> beside_list g g' -> origins g' ->
  idx_ok (length (g_rows g')) (g_row_idx g') -> shown g' VItems = shown g VItems ->
  shown g' VDetails = Some (item_text mask (selected_item g')) -> (mask = false -> selected_row g' <> None /\ g_item g' = selected_item g') -> ginv g'.
Proof.
  intros G Hc B Ho Hi Hs Hd Hm. assert (S : session g' = session g) by (unfold session; now rewrite (bl_app _ _ B)).
  assert (Sh : forall n, n <> VItems -> n <> VDetails -> shown g' n = shown g n) by (intros n A1 A2; unfold shown; now rewrite (bl_views _ _ B)).
  assert (M := gi_mode _ G). constructor.
  - rewrite S. apply (gi_reach _ G).
  - rewrite (bl_views _ _ B) by discriminate. apply (gi_version _ G).
  - rewrite (bl_views _ _ B) by discriminate. apply (gi_help _ G).
  - unfold mode in *. rewrite (bl_cur _ _ B), Hc in *.
    assert (P : no_prompt g' <-> no_prompt g) by (unfold no_prompt; rewrite !(bl_views _ _ B) by discriminate; reflexivity).
    assert (Q : open_menu g' <-> open_menu g) by (unfold open_menu; rewrite S, (bl_cats _ _ B), (bl_midx _ _ B), (Sh VMenu) by discriminate; reflexivity).
    assert (L : forall mask0 : bool, open_list mask0 g -> open_list mask g').
    { intros mask0. unfold open_list. rewrite (bl_midx _ _ B), (bl_cats _ _ B), S, (bl_rows _ _ B), Hs. rewrite (bl_rows _ _ B) in Hi. tauto. }
    destruct mask.
    + destruct M as (M1 & M2 & M3). rewrite Q, P. split; [exact M1|split; [exact (L _ M2)|exact M3]].
    + destruct M as (M1 & M2 & M3 & M4 & M5). rewrite Q, P. destruct (Hm eq_refl). split; [exact M1|split; [exact (L _ M2)|]]. auto.
  - exact Ho.
Qed.

(** Another row is selected. *)
Lemma select_run f i g v d : moves f -> view_of g VItems = Some v -> view_of g VDetails = Some d -> origins g ->
  (0 <= i < Z.of_nat (length (g_rows g)))%Z ->
  exists g', (try_view VItems f ;;? put (set_row_idx i) ;;; show_overview tz)%st g = (g', Ok true) /\ beside_list g g' /\ origins g' /\ g_row_idx g' = i /\
    (exists v', f v = Some v' /\ view_of g' VItems = Some v' /\ v_text v' = v_text v) /\
    shown g' VDetails = Some (item_text true (selected_item g')) /\ g_item g' = selected_item g'.
Proof.
  intros Hf Hv Hd Ho Hi. destruct (try_view_moves VItems f g v Hf Hv Ho) as (g1 & E1 & L1 & O1 & W1 & v1 & F1 & V1 & T1).
  rewrite (check_ok _ _ _ _ E1). set (g2 := set_row_idx i g1).
  assert (Hd2 : view_of g2 VDetails = Some d) by (change (view_of g1 VDetails = Some d); rewrite W1 by discriminate; exact Hd).
  assert (Hi2 : idx_ok (length (g_rows g2)) (g_row_idx g2)).
  { right. change (g_row_idx g2) with i. change (g_rows g2) with (g_rows g1). now rewrite (lk_rows _ _ L1). }
  destruct (details_run true g2 d Hd2 (Ho VDetails d Hd)) as (g3 & E3 & B3 & I3 & J3 & V3 & d3 & D3 & N3 & T3).
  destruct (idx_selected g2 Hi2) as [r Hr].
  { destruct (g_rows g2) eqn:X; [|discriminate]. change (g_rows g2) with (g_rows g1) in X. rewrite (lk_rows _ _ L1) in X. rewrite X in Hi. cbn in Hi. lia. }
  rewrite Hr in E3. exists g3. destruct (selected_of g2 g3) as [_ S3]; [exact (bl_rows _ _ B3)|exact I3|unfold session; now rewrite (bl_app _ _ B3)|].
  split; [exact E3|]. split.
  { constructor; try (match goal with |- ?f g3 = _ => idtac | |- _ => idtac end).
    - rewrite (bl_app _ _ B3). exact (lk_app _ _ L1).
    - rewrite (bl_vault _ _ B3). exact (lk_vault _ _ L1).
    - rewrite (bl_cats _ _ B3). exact (lk_cats _ _ L1).
    - rewrite (bl_midx _ _ B3). exact (lk_midx _ _ L1).
    - rewrite (bl_rows _ _ B3). exact (lk_rows _ _ L1).
    - rewrite (bl_help _ _ B3). exact (lk_help _ _ L1).
    - rewrite (bl_error _ _ B3). exact (lk_error _ _ L1).
    - rewrite (bl_checking _ _ B3). exact (lk_checking _ _ L1).
    - rewrite (bl_cur _ _ B3). exact (lk_cur _ _ L1).
    - rewrite (bl_w _ _ B3). exact (lk_w _ _ L1).
    - rewrite (bl_h _ _ B3). exact (lk_h _ _ L1).
    - intros n A1 A2. rewrite (bl_views _ _ B3) by assumption. exact (W1 n A1). }
  split.
  { intros n w Hw. destruct n; try (rewrite (bl_views _ _ B3) in Hw by discriminate; exact (O1 _ _ Hw)).
    - rewrite V3 in Hw. exact (O1 _ _ Hw).
    - assert (w = d3) as -> by congruence. exact N3. }
  split; [exact I3|]. split; [exists v1; split; [exact F1|split; [rewrite V3; exact V1|exact T1]]|].
  unfold shown. rewrite D3. cbn [option_map]. rewrite S3, T3. auto.
Qed.

Lemma shown_view g n t : shown g n = Some t -> exists v, view_of g n = Some v /\ v_text v = t.
Proof. unfold shown. destruct (view_of g n) as [v|]; [|discriminate]. cbn. intros H. exists v. split; [reflexivity|congruence]. Qed.

Definition row_goal (i : Z) (g g' : gui) : Prop :=
  ginv g' /\ beside_list g g' /\ g_row_idx g' = i /\ (g_row_idx g' = g_row_idx g -> g' = g) /\ current g' = VItems.

Lemma row_down_run g : ginv g -> current g = VItems ->
  exists g', row_down tz g = (g', Ok true) /\ row_goal (Z.min (g_row_idx g + 1) (Z.of_nat (length (g_rows g)) - 1)) g g' /\
    (g_row_idx g' <> g_row_idx g -> exists v v', view_of g VItems = Some v /\ view_of g' VItems = Some v' /\ line_down v = Some v').
Proof.
  intros G Hc. assert (M := gi_mode _ G). unfold mode in M. rewrite Hc in M. destruct M as (_ & (M1 & M2 & M3 & M4 & M5) & _).
  destruct (shown_view _ _ _ M4) as (v & Hv & Tv). destruct (shown_view _ _ _ M5) as (d & Hd & Td).
  unfold row_down. unfold get at 1. unfold bind at 1. unfold get at 1. unfold bind at 1. destruct (_ && _) eqn:E.
  - destruct (select_run line_down (g_row_idx g + 1) g v d line_down_moves Hv Hd (gi_origin _ G)) as (g' & E' & B & Ho & I & (v' & F & V & T) & D & J).
    { unfold idx_ok in M3. lia. }
    exists g'. split; [exact E'|]. split.
    { split; [|split; [exact B|split; [rewrite I; unfold idx_ok in M3; lia|split; [intros X; lia|rewrite (bl_cur _ _ B); exact Hc]]]].
      apply (list_ginv true g g' G Hc B Ho).
      + rewrite (bl_rows _ _ B), I. unfold idx_ok in *. lia.
      + unfold shown. rewrite V, Hv. cbn [option_map]. now rewrite T.
      + exact D.
      + discriminate. }
    intros _. exists v, v'. auto.
  - exists g. split; [reflexivity|]. split; [|congruence]. split; [exact G|]. split; [apply beside_refl|]. split; [unfold idx_ok in M3; lia|]. auto.
Qed.

Lemma row_up_run g : ginv g -> current g = VItems ->
  exists g', row_up tz g = (g', Ok true) /\ row_goal (if (0 <? g_row_idx g)%Z then g_row_idx g - 1 else g_row_idx g) g g' /\
    (g_row_idx g' <> g_row_idx g -> exists v v', view_of g VItems = Some v /\ view_of g' VItems = Some v' /\ line_up v = Some v').
Proof.
  intros G Hc. assert (M := gi_mode _ G). unfold mode in M. rewrite Hc in M. destruct M as (_ & (M1 & M2 & M3 & M4 & M5) & _).
  destruct (shown_view _ _ _ M4) as (v & Hv & Tv). destruct (shown_view _ _ _ M5) as (d & Hd & Td).
  unfold row_up. unfold get at 1. unfold bind at 1. destruct (0 <? g_row_idx g)%Z eqn:E.
  - destruct (select_run line_up (g_row_idx g - 1) g v d line_up_moves Hv Hd (gi_origin _ G)) as (g' & E' & B & Ho & I & (v' & F & V & T) & D & J).
    { unfold idx_ok in M3. lia. }
    exists g'. split; [exact E'|]. split.
    { split; [|split; [exact B|split; [exact I|split; [intros X; lia|rewrite (bl_cur _ _ B); exact Hc]]]].
      apply (list_ginv true g g' G Hc B Ho).
      + rewrite (bl_rows _ _ B), I. unfold idx_ok in *. lia.
      + unfold shown. rewrite V, Hv. cbn [option_map]. now rewrite T.
      + exact D.
      + discriminate. }
    intros _. exists v, v'. auto.
  - exists g. split; [reflexivity|]. split; [|congruence]. split; [exact G|]. split; [apply beside_refl|]. auto.
Qed.

(** The help line says something else; another view has the focus. *)
Definition refocused (n : vname) (g g' : gui) : Prop :=
  g_app g' = g_app g /\ g_vault g' = g_vault g /\ g_cats g' = g_cats g /\ g_menu_idx g' = g_menu_idx g /\ g_rows g' = g_rows g /\
  g_row_idx g' = g_row_idx g /\ g_item g' = g_item g /\ g_error g' = g_error g /\ g_checking g' = g_checking g /\
  ui_w (g_ui g') = ui_w (g_ui g) /\ ui_h (g_ui g') = ui_h (g_ui g) /\ current g' = n /\
  (forall m, m <> VHelp -> view_of g' m = view_of g m) /\ view_of g' VHelp <> None /\ (origins g -> origins g').

Lemma refocus_run n h g v : view_of g n = Some v -> view_of g VHelp <> None ->
  exists g', (set_current n ;;? show_help h)%st g = (g', Ok true) /\ refocused n g g' /\ shown g' VHelp = Some (help_text h).
Proof.
  intros Hv Hh. destruct (view_of g VHelp) as [hv|] eqn:E; [|congruence]. clear Hh.
  rewrite (check_ok _ _ _ _ (set_current_run n g v Hv)). rewrite (show_help_run h (scur n g) hv E). eexists. split; [reflexivity|]. split; [|reflexivity].
  do 12 (split; [reflexivity|]). split; [|split; [discriminate|]].
  - intros m Hm. rewrite view_sv. destruct m; try reflexivity. congruence.
  - intros Ho. apply origins_sv; [exact Ho|]. apply (Ho VHelp hv E).
Qed.

Lemma beside_list_help g g' : beside_list g g' -> view_of g' VHelp = view_of g VHelp.
Proof. intros B. now apply (bl_views _ _ B). Qed.

(** TAB on the list shows the item, or the program dies when there is none. *)
Lemma reveal_run g : ginv g -> current g = VItems ->
  match selected_row g with
  | None => reveal tz g = (g, Panic) /\ g_rows g = []
  | Some _ => exists g', reveal tz g = (g', Ok true) /\ ginv g' /\ current g' = VDetails /\ shown g' VDetails = Some (item_text false (selected_item g)) /\
                g_app g' = g_app g /\ g_rows g' = g_rows g /\ g_row_idx g' = g_row_idx g /\ g_vault g' = g_vault g /\
                view_of g' VItems = view_of g VItems /\ view_of g' VMenu = view_of g VMenu /\ selected_item g' = selected_item g
  end.
Proof.
  intros G Hc. assert (M := gi_mode _ G). unfold mode in M. rewrite Hc in M. destruct M as (M0 & (M1 & M2 & M3 & M4 & M5) & M6).
  destruct (shown_view _ _ _ M4) as (v & Hv & Tv). destruct (shown_view _ _ _ M5) as (d & Hd & Td).
  destruct (details_run false g d Hd (gi_origin _ G _ _ Hd)) as (g1 & E1 & B1 & I1 & J1 & V1 & d1 & D1 & N1 & T1).
  assert (Er : forall g', (pick_item ;;; details_update tz false)%st g = (g', Ok true) -> reveal tz g = (set_current VDetails ;;? show_help details_help)%st g').
  { unfold reveal. intros g'. unfold bind at 1 2. destruct (pick_item g) as [g0 []]; intros X; try discriminate X.
    now rewrite (check_ok _ _ _ _ X). }
  assert (Ep : (pick_item ;;; details_update tz false)%st g = (g, Panic) -> reveal tz g = (g, Panic)).
  { unfold reveal. unfold bind at 1 2. destruct (pick_item g) as [g0 []]; intros X; try (exact X).
    unfold check at 1. unfold bind at 1. rewrite X. reflexivity. }
  destruct (selected_row g) as [r|] eqn:Sr.
  - specialize (Er _ E1). destruct (refocus_run VDetails details_help g1 d1 D1) as (g2 & E2 & R & _).
    { rewrite (beside_list_help _ _ B1). apply (gi_help _ G). }
    exists g2. rewrite Er. split; [exact E2|]. destruct R as (R1 & R2 & R3 & R4 & R5 & R6 & R7 & R8 & R9 & R10 & R11 & R12 & R13 & R14 & R15).
    assert (S2 : session g2 = session g) by (unfold session; rewrite R1; now rewrite (bl_app _ _ B1)).
    destruct (selected_of g g2) as [Q1 Q2]; [rewrite R5; exact (bl_rows _ _ B1)|rewrite R6; exact I1|exact S2|].
    assert (W2 : forall m, m <> VHelp -> m <> VDetails -> view_of g2 m = view_of g m).
    { intros m A1 A2. rewrite R13 by exact A1. destruct m; try (apply (bl_views _ _ B1); congruence); try congruence. }
    assert (Sd : shown g2 VDetails = Some (item_text false (selected_item g))) by (unfold shown; rewrite R13 by discriminate; rewrite D1; cbn [option_map]; now rewrite T1).
    split; [|split; [exact R12|split; [exact Sd|]]].
    + constructor.
      * rewrite S2. apply (gi_reach _ G).
      * rewrite W2 by discriminate. apply (gi_version _ G).
      * exact R14.
      * unfold mode. rewrite R12. unfold open_menu, open_list, no_prompt in *. rewrite S2, R3, R4, R5, R6, Q1, Q2, R7, J1, I1, (bl_cats _ _ B1), (bl_midx _ _ B1), (bl_rows _ _ B1), Sr.
        unfold shown in *. rewrite (W2 VMenu), (W2 VItems), (W2 VPrompt), (W2 VError) by discriminate. split; [exact M0|]. split; [|split; [exact M6|split; [discriminate|reflexivity]]].
        split; [exact M1|]. split; [exact M2|]. split; [exact M3|]. split; [exact M4|]. exact Sd.
      * apply R15. intros n w Hw. destruct n; try (rewrite (bl_views _ _ B1) in Hw by discriminate; exact (gi_origin _ G _ _ Hw)).
        -- rewrite V1 in Hw. exact (gi_origin _ G _ _ Hw).
        -- assert (w = d1) as -> by congruence. exact N1.
    + rewrite R1, R5, R6, R2. split; [exact (bl_app _ _ B1)|]. split; [exact (bl_rows _ _ B1)|]. split; [exact I1|]. split; [exact (bl_vault _ _ B1)|].
      split; [apply W2; discriminate|]. split; [apply W2; discriminate|exact Q2].
  - split; [exact (Ep E1)|]. destruct (g_rows g) eqn:X; [reflexivity|]. destruct (idx_selected g) as [r Hr]; [now rewrite X|now rewrite X|congruence].
Qed.

Lemma details_cover g d : view_of g VDetails = Some d -> nonneg d ->
  exists g', details_update tz true g = (g', Ok true) /\ beside_list g g' /\ g_row_idx g' = g_row_idx g /\ g_item g' = g_item g /\
    view_of g' VItems = view_of g VItems /\
    exists d', view_of g' VDetails = Some d' /\ nonneg d' /\ v_text d' = item_text true (g_item g).
Proof.
  intros Hd Hn. destruct (reset_origin_moves (clear d) Hn) as (d1 & R1 & R2 & R3).
  unfold details_update. unfold get at 1. unfold bind at 1.
  rewrite (check_ok _ _ _ _ (try_view_sv VDetails (fun v => reset_origin (clear v)) g d d1 Hd R1)).
  assert (V1 : view_of (sv VDetails d1 g) VDetails = Some d1) by reflexivity.
  assert (B : forall d, beside_list g (sv VDetails d g)).
  { intros x. constructor; try reflexivity. intros n A1 A2. rewrite view_sv. destruct n; try reflexivity; congruence. }
  destruct (g_item g) as [i|] eqn:Ei.
  - rewrite (on_view_sv _ _ _ _ V1). eexists. split; [reflexivity|]. split; [|].
    + constructor; try reflexivity. intros n A1 A2. rewrite !view_sv. destruct n; try reflexivity; congruence.
    + split; [reflexivity|]. split; [exact Ei|]. split; [reflexivity|]. eexists. split; [reflexivity|]. split; [exact R3|]. unfold item_text. cbn [write v_text]. rewrite R2. reflexivity.
  - eexists. split; [reflexivity|]. split; [apply B|]. split; [reflexivity|]. split; [exact Ei|]. split; [reflexivity|]. exists d1. split; [reflexivity|]. split; [exact R3|]. rewrite R2. reflexivity.
Qed.

Lemma cover_run g : ginv g -> current g = VDetails ->
  exists g', cover tz g = (g', Ok true) /\ ginv g' /\ current g' = VItems /\ shown g' VDetails = Some (item_text true (selected_item g)) /\
    g_app g' = g_app g /\ g_rows g' = g_rows g /\ g_row_idx g' = g_row_idx g /\ view_of g' VItems = view_of g VItems /\ selected_item g' = selected_item g.
Proof.
  intros G Hc. assert (M := gi_mode _ G). unfold mode in M. rewrite Hc in M. destruct M as (M0 & (M1 & M2 & M3 & M4 & M5) & M6 & M7 & M8).
  destruct (shown_view _ _ _ M4) as (v & Hv & Tv). destruct (shown_view _ _ _ M5) as (d & Hd & Td).
  destruct (details_cover g d Hd (gi_origin _ G _ _ Hd)) as (g1 & E1 & B1 & I1 & J1 & V1 & d1 & D1 & N1 & T1).
  unfold cover. rewrite (check_ok _ _ _ _ E1). rewrite Hv in V1.
  destruct (refocus_run VItems items_help g1 v V1) as (g2 & E2 & R & _).
  { rewrite (beside_list_help _ _ B1). apply (gi_help _ G). }
  exists g2. split; [exact E2|]. destruct R as (R1 & R2 & R3 & R4 & R5 & R6 & R7 & R8 & R9 & R10 & R11 & R12 & R13 & R14 & R15).
  assert (S2 : session g2 = session g) by (unfold session; rewrite R1; now rewrite (bl_app _ _ B1)).
  destruct (selected_of g g2) as [Q1 Q2]; [rewrite R5; exact (bl_rows _ _ B1)|rewrite R6; exact I1|exact S2|].
  assert (W2 : forall m, m <> VHelp -> m <> VDetails -> view_of g2 m = view_of g m).
  { intros m A1 A2. rewrite R13 by exact A1. destruct m; try (apply (bl_views _ _ B1); congruence); congruence. }
  assert (Sd : shown g2 VDetails = Some (item_text true (selected_item g))) by (unfold shown; rewrite R13 by discriminate; rewrite D1; cbn [option_map]; now rewrite T1, M8).
  split; [|split; [exact R12|split; [exact Sd|]]].
  - constructor.
    + rewrite S2. apply (gi_reach _ G).
    + rewrite W2 by discriminate. apply (gi_version _ G).
    + exact R14.
    + unfold mode. rewrite R12. unfold open_menu, open_list, no_prompt in *. rewrite S2, R3, R4, R5, R6, Q2, I1, (bl_cats _ _ B1), (bl_midx _ _ B1), (bl_rows _ _ B1).
      unfold shown in *. rewrite (W2 VMenu), (W2 VItems), (W2 VPrompt), (W2 VError) by discriminate. split; [exact M0|]. split; [|exact M6].
      split; [exact M1|]. split; [exact M2|]. split; [exact M3|]. split; [exact M4|]. exact Sd.
    + apply R15. intros n w Hw. destruct n; try (rewrite (bl_views _ _ B1) in Hw by discriminate; exact (gi_origin _ G _ _ Hw)).
      * rewrite V1 in Hw. assert (w = v) as -> by congruence. exact (gi_origin _ G _ _ Hv).
      * assert (w = d1) as -> by congruence. exact N1.
  - rewrite R1, R5, R6. split; [exact (bl_app _ _ B1)|]. split; [exact (bl_rows _ _ B1)|]. split; [exact I1|]. split; [apply W2; discriminate|exact Q2].
Qed.

(** Views are removed. *)
Definition dv (n : vname) (g : gui) : gui := set_ui (put_view n None (g_ui g)) g.
Lemma delete_run n g v : view_of g n = Some v -> delete_view n g = (dv n g, Ok true).
Proof. unfold delete_view, view_of. now intros ->. Qed.
Lemma view_dv n m g : view_of (dv n g) m = if vname_eqb m n then None else view_of g m.
Proof. reflexivity. Qed.
Lemma origins_dv n g : origins g -> origins (dv n g).
Proof. intros H m w. rewrite view_dv. destruct (vname_eqb m n); [discriminate|apply H]. Qed.

Definition back (g : gui) : gui := scur VMenu (dv VItems (dv VDetails g)).

Lemma go_back_run g v d m : view_of g VItems = Some v -> view_of g VDetails = Some d -> view_of g VMenu = Some m ->
  go_back g = (back g, Ok true).
Proof.
  intros Hv Hd Hm. unfold go_back. rewrite (check_ok _ _ _ _ (delete_run _ _ _ Hd)).
  rewrite (check_ok _ _ _ _ (delete_run VItems (dv VDetails g) v Hv)). exact (set_current_run VMenu (dv VItems (dv VDetails g)) m Hm).
Qed.

Lemma mode_views g : ginv g -> exists m, view_of g VMenu = Some m.
Proof.
  intros G. assert (M := gi_mode _ G). unfold mode, closed_menu, open_menu in M.
  assert (H : exists t, shown g VMenu = Some t).
  { destruct (current g); try contradiction.
    - destruct M as ((_ & _ & [w H] & _) & _); eauto.
    - destruct M as ((_ & _ & [w H] & _) & _); eauto.
    - destruct M as ((_ & _ & [w H] & _) & _); eauto.
    - destruct M as ((_ & _ & _ & H) & _); eauto.
    - destruct M as ((_ & _ & _ & H) & _); eauto. }
  destruct H as [t H]. destruct (shown_view _ _ _ H) as (m & Hm & _). eauto.
Qed.

Lemma list_views g : ginv g -> current g = VItems \/ current g = VDetails ->
  (exists v d, view_of g VItems = Some v /\ view_of g VDetails = Some d) /\ open_menu g /\ no_prompt g.
Proof.
  intros G [Hc|Hc]; assert (M := gi_mode _ G); unfold mode in M; rewrite Hc in M.
  - destruct M as (M0 & (_ & _ & _ & M4 & M5) & M6). destruct (shown_view _ _ _ M4) as (v & Hv & _). destruct (shown_view _ _ _ M5) as (d & Hd & _). eauto 10.
  - destruct M as (M0 & (_ & _ & _ & M4 & M5) & M6 & _). destruct (shown_view _ _ _ M4) as (v & Hv & _). destruct (shown_view _ _ _ M5) as (d & Hd & _). eauto 10.
Qed.

Lemma back_inv g : ginv g -> current g = VItems \/ current g = VDetails -> go_back g = (back g, Ok true) /\ ginv (back g).
Proof.
  intros G Hc. destruct (list_views g G Hc) as ((v & d & Hv & Hd) & M0 & M6). destruct (mode_views g G) as (m & Hm).
  split; [exact (go_back_run g v d m Hv Hd Hm)|]. constructor.
  - exact (gi_reach _ G).
  - exact (gi_version _ G).
  - exact (gi_help _ G).
  - split; [exact M0|]. split; [split; reflexivity|exact M6].
  - intros n w Hw. change (view_of (dv VItems (dv VDetails g)) n = Some w) in Hw. revert Hw. apply origins_dv, origins_dv. exact (gi_origin _ G).
Qed.

(** The vault is locked from the menu. *)
Lemma locked_lock s : is_unlocked (lock s) = false.
Proof. reflexivity. Qed.

Lemma is_unlocked_lock_reach s : reachable C U tz s -> reachable C U tz (lock s).
Proof. intros H. apply (step_reachable forwards (MkDisk [] [] (fun _ => false)) OpLock s _ RUnit forwards_ok H). reflexivity. Qed.

Definition locked_look (g g' : gui) : Prop :=
  ginv g' /\ current g' = VPrompt /\ session g' = lock (session g) /\ shown g' VPrompt = Some [] /\ shown g' VMenu = Some [] /\
  view_of g' VItems = None /\ view_of g' VDetails = None /\ view_of g' VError = None /\ shown g' VHelp = Some (help_text menu_help) /\
  g_rows g' = g_rows g /\ g_item g' = g_item g /\ g_row_idx g' = g_row_idx g /\ g_vault g' = g_vault g /\ a_world (g_app g') = a_world (g_app g) /\ a_conf (g_app g') = a_conf (g_app g) /\
  view_of g' VVersion = view_of g VVersion /\ ui_w (g_ui g') = ui_w (g_ui g) /\ ui_h (g_ui g') = ui_h (g_ui g) /\
  (exists v v', view_of g VMenu = Some v /\ reset_cursor v = Some v' /\ view_of g' VMenu = Some (clear v')).

Lemma menu_lock_run g : ginv g -> current g = VMenu -> exists g', menu_lock center g = (g', Ok true) /\ locked_look g g'.
Proof.
  intros G Hc. assert (M := gi_mode _ G). unfold mode in M. rewrite Hc in M. destruct M as (M1 & [N1 N2] & [P1 P2]).
  destruct (mode_views g G) as (m & Hm). assert (Hh := gi_help _ G). destruct (view_of g VHelp) as [hv|] eqn:Eh; [|congruence]. clear Hh.
  set (g0 := set_menu_idx (-1) (set_cats [] g)).
  set (g1 := set_app (MkApp (a_world (g_app g)) (a_conf (g_app g)) (lock (a_vault (g_app g)))) g0).
  destruct (reset_cursor_moves m (gi_origin _ G _ _ Hm)) as (m1 & F1 & T1 & Nn1).
  set (g2 := sv VMenu m1 g1). set (g3 := sv VMenu (clear m1) g2).
  set (pv := MkView (ui_w (g_ui g) ÷ 2 + 30 - (ui_w (g_ui g) ÷ 2 - 30) - 1) (ui_h (g_ui g) ÷ 2 + 1 - (ui_h (g_ui g) ÷ 2 - 1) - 1) [] 0 0 0 0).
  set (g4 := scur VPrompt (sv VPrompt pv g3)).
  set (g5 := sv VHelp (write (help_text menu_help) (clear hv)) (set_help menu_help g4)).
  assert (E : menu_lock center g = (g5, Ok true)).
  { unfold menu_lock. unfold put at 1. unfold bind at 1. fold g0. unfold bind at 1. change (on_app (on_vault (fun _ s => Ok (lock s, tt))) g0) with (g1, Ok tt).
    cbv beta iota.
    rewrite (check_ok _ _ _ _ (try_view_sv VMenu reset_cursor g1 m m1 Hm F1)). fold g2.
    rewrite (check_ok _ _ _ _ (on_view_sv VMenu clear g2 m1 eq_refl)). fold g3.
    assert (E4 : menu_update center g3 = (g4, Ok true)).
    { unfold menu_update. unfold get at 1. unfold bind at 1. change (a_vault (g_app g3)) with (lock (a_vault (g_app g))). rewrite locked_lock.
      unfold prompt_layout. unfold get at 1. unfold bind at 1. erewrite bind_ok; [|apply set_view_new; [exact P1|lia]]. reflexivity. }
    rewrite (check_ok _ _ _ _ E4). exact (show_help_run menu_help g4 hv Eh). }
  exists g5. split; [exact E|]. split.
  - constructor.
    + apply is_unlocked_lock_reach. exact (gi_reach _ G).
    + exact (gi_version _ G).
    + discriminate.
    + split; [split; [apply locked_lock|repeat split]|]. split; [split; [exact N1|exact N2]|]. split; [discriminate|exact P2].
    + apply origins_sv; [|exact (gi_origin _ G _ _ Eh)]. intros n w Hw. change (view_of (sv VPrompt pv g3) n = Some w) in Hw. revert Hw.
      apply origins_sv; [|unfold nonneg; cbn; lia]. apply origins_sv; [|exact Nn1]. apply origins_sv; [|exact Nn1]. exact (gi_origin _ G).
  - split; [reflexivity|]. split; [reflexivity|]. split; [reflexivity|]. split; [reflexivity|]. split; [exact N1|]. split; [exact N2|]. split; [exact P2|].
    do 10 (split; [reflexivity|]). exists m, m1. auto.
Qed.

Lemma items_lock_run g : ginv g -> current g = VItems \/ current g = VDetails -> exists g', items_lock center g = (g', Ok true) /\ locked_look g g'.
Proof.
  intros G Hc. destruct (back_inv g G Hc) as [E B]. destruct (menu_lock_run (back g) B eq_refl) as (g' & E' & L).
  exists g'. unfold items_lock. rewrite (check_ok _ _ _ _ E). split; [exact E'|]. exact L.
Qed.

(** A password is given. *)
Lemma unlock_opens O D v p s s' : unlock C U tz O D v p s = Ok (s', None) -> is_unlocked s' = true.
Proof.
  with_strategy transparent [unlock] unfold unlock. intros H. apply rbind_ok in H. destruct H as ([ks|] & _ & H); [|discriminate H].
  apply rbind_ok in H. destruct H as (? & _ & H). assert (s' = MkState (st_profile s) (store_items x (st_items s)) (Some ks) (st_reg s)) as -> by congruence. reflexivity.
Qed.

Definition disk_of (g : gui) : disk := w_disk (a_world (g_app g)).

Definition unchanged (g g' : gui) : Prop :=
  a_world (g_app g') = a_world (g_app g) /\ a_conf (g_app g') = a_conf (g_app g) /\ g_vault g' = g_vault g /\ ui_w (g_ui g') = ui_w (g_ui g) /\ ui_h (g_ui g') = ui_h (g_ui g) /\
  view_of g' VVersion = view_of g VVersion /\ g_rows g' = g_rows g /\ g_item g' = g_item g /\ g_row_idx g' = g_row_idx g.

Lemma enter_password_run O g : oracles_ok O -> ginv g -> current g = VPrompt ->
  match unlock C U tz O (disk_of g) (g_vault g) (trim_space (typed g)) (session g) with
  | Ok (s', Some e) => exists g', enter_password C U tz O center g = (g', Ok true) /\ ginv g' /\ current g' = VError /\ session g' = session g /\
        unchanged g g' /\ e = ErrInvalidPass /\ shown g' VError = Some (err_text e)
  | Ok (s', None) => exists g', enter_password C U tz O center g = (g', Ok true) /\ ginv g' /\ current g' = VMenu /\
        st_items (session g') = st_items s' /\ st_keys (session g') = st_keys s' /\ unchanged g g' /\
        g_menu_idx g' = (match menu (session g') with [] => -1 | _ => 0 end)%Z /\
        exists v v', view_of g VMenu = Some v /\ view_of g' VMenu = Some v' /\ v_cy v' = v_cy v /\ v_oy v' = v_oy v /\ v_h v' = v_h v
  | Panic => exists g', enter_password C U tz O center g = (g', Panic)
  | Exit n => exists g', enter_password C U tz O center g = (g', Exit n)
  end.
Proof.
  intros HO G Hc. assert (M := gi_mode _ G). unfold mode in M. rewrite Hc in M. destruct M as ((L1 & L2 & L3 & L4) & [N1 N2] & P1 & P2).
  destruct (shown_view _ _ _ L4) as (m & Hm & Tm). destruct (view_of g VPrompt) as [pv|] eqn:Ep; [|congruence]. clear P1.
  assert (Et : typed g = v_text pv) by (unfold typed, shown; now rewrite Ep). rewrite Et.
  set (g1 := dv VPrompt g).
  assert (E1 : forall k, enter_password C U tz O center g = k -> k = k) by reflexivity. clear E1.
  assert (E1 : enter_password C U tz O center g =
     (e <- on_app (on_vault (fun D s => unlock C U tz O D (g_vault g) (trim_space (v_text pv)) s)) ;;
      match e with
      | Some err => put (set_error (Some err)) ;;; error_layout
      | None => set_current VMenu ;;? menu_update center
      end)%st g1).
  { unfold enter_password. unfold get at 1. unfold bind at 1. change (ui_views (g_ui g) VPrompt) with (view_of g VPrompt). rewrite Ep.
    rewrite (check_ok _ _ _ _ (delete_run VPrompt g pv Ep)). fold g1. reflexivity. }
  rewrite E1. clear E1. unfold bind at 1 3 5 7. unfold on_app at 1 2 3 4. unfold on_vault at 1 2 3 4.
  change (w_disk (a_world (g_app g1))) with (disk_of g). change (a_vault (g_app g1)) with (session g).
  destruct (unlock C U tz O (disk_of g) (g_vault g) (trim_space (v_text pv)) (session g)) as [[s' [e|]]| |n] eqn:Eu.
  - with_strategy transparent [unlock] destruct (unlock_error_state _ _ _ _ _ _ _ _ _ _ Eu) as [-> ->].
    set (g2 := set_error (Some ErrInvalidPass) (set_app (MkApp (a_world (g_app g1)) (a_conf (g_app g1)) (session g)) g1)).
    set (ev := MkView (ui_w (g_ui g) ÷ 2 + 30 - (ui_w (g_ui g) ÷ 2 - 30) - 1) (ui_h (g_ui g) ÷ 2 + 1 - (ui_h (g_ui g) ÷ 2 - 1) - 1) [] 0 0 0 0).
    set (g3 := sv VError (write (err_text ErrInvalidPass) ev) (scur VError (sv VError ev g2))).
    assert (E3 : error_layout g2 = (g3, Ok true)).
    { unfold error_layout. unfold get at 1. unfold bind at 1. unfold get at 1. unfold bind at 1. erewrite bind_ok; [|apply set_view_new; [exact P2|lia]]. reflexivity. }
    exists g3. split; [exact E3|]. split; [|split; [reflexivity|split; [reflexivity|split; [do 8 (split; [reflexivity|]); reflexivity|split; [reflexivity|reflexivity]]]]].
    constructor.
    + exact (gi_reach _ G).
    + exact (gi_version _ G).
    + exact (gi_help _ G).
    + split; [split; [exact L1|split; [exact L2|split; [exact L3|exact L4]]]|]. split; [split; [exact N1|exact N2]|]. split; [reflexivity|]. exists ErrInvalidPass. split; reflexivity.
    + apply origins_sv; [|unfold nonneg; cbn; lia]. intros n w Hw. change (view_of (sv VError ev g1) n = Some w) in Hw. revert Hw.
      apply origins_sv; [|unfold nonneg; cbn; lia]. apply origins_dv. exact (gi_origin _ G).
  - assert (Uo := unlock_opens _ _ _ _ _ _ Eu).
    assert (Ru : reachable C U tz s').
    { apply (step_reachable O (disk_of g) (OpUnlock (g_vault g) (trim_space (v_text pv))) (session g) s' (RError None) HO (gi_reach _ G)).
      cbn [step]. rewrite Eu. reflexivity. }
    set (g2 := set_app (MkApp (a_world (g_app g1)) (a_conf (g_app g1)) s') g1).
    set (g3 := scur VMenu g2).
    destruct (menu_update_open g3 m Ru Uo L2 L3 Hm Tm) as (g4 & E4 & B4 & R4 & O4 & I4 & (m4 & V4 & S1 & S2 & S3 & S4 & S5 & S6) & K1 & K2 & K3).
    exists g4. rewrite (check_ok _ _ _ _ (set_current_run VMenu g2 m Hm)). split; [exact E4|].
    destruct B4 as (B1 & B2 & B3 & B4 & B5 & B6 & B7 & B8 & B9 & B10 & B11 & B12 & B13 & B14).
    split; [|split; [exact B3|split; [exact K1|split; [exact K2|split; [|split; [exact I4|]]]]]].
    + constructor.
      * exact R4.
      * rewrite B1 by discriminate. exact (gi_version _ G).
      * rewrite B1 by discriminate. exact (gi_help _ G).
      * unfold mode. rewrite B3. split; [exact O4|]. unfold no_list, no_prompt. rewrite !B1 by discriminate. split; [split; [exact N1|exact N2]|split; [reflexivity|exact P2]].
      * intros n w Hw. destruct n; try (rewrite B1 in Hw by discriminate; revert Hw; apply (origins_dv VPrompt g (gi_origin _ G))).
        assert (w = m4) as -> by congruence. unfold nonneg. rewrite S5, S6. exact (gi_origin _ G _ _ Hm).
    + split; [exact B13|]. split; [exact B14|]. split; [exact B11|]. split; [exact B4|]. split; [exact B5|]. split; [rewrite B1 by discriminate; reflexivity|].
      split; [exact B6|]. split; [exact B8|exact B7].
    + exists m, m4. auto.
  - eexists. reflexivity.
  - eexists. reflexivity.
Qed.

Lemma close_error_run g : ginv g -> current g = VError ->
  exists g', close_error center g = (g', Ok true) /\ ginv g' /\ current g' = VPrompt /\ session g' = session g /\ unchanged g g' /\
    shown g' VPrompt = Some [] /\ view_of g' VError = None.
Proof.
  intros G Hc. assert (M := gi_mode _ G). unfold mode in M. rewrite Hc in M. destruct M as ((L1 & L2 & L3 & L4) & [N1 N2] & P1 & e & P2 & P3).
  destruct (shown_view _ _ _ P3) as (ev & He & _).
  unfold close_error. rewrite (check_ok _ _ _ _ (delete_run _ _ _ He)). set (g1 := dv VError g).
  unfold menu_update. unfold get at 1. unfold bind at 1. change (a_vault (g_app g1)) with (session g). rewrite L1.
  unfold prompt_layout. unfold get at 1. unfold bind at 1. erewrite bind_ok; [|apply set_view_new; [exact P1|lia]].
  set (pv := MkView _ _ [] 0 0 0 0). exists (scur VPrompt (sv VPrompt pv g1)). split; [reflexivity|]. split.
  - constructor.
    + exact (gi_reach _ G).
    + exact (gi_version _ G).
    + exact (gi_help _ G).
    + split; [split; [exact L1|split; [exact L2|split; [exact L3|exact L4]]]|]. split; [split; [exact N1|exact N2]|]. split; [discriminate|reflexivity].
    + intros n w Hw. change (view_of (sv VPrompt pv g1) n = Some w) in Hw. revert Hw. apply origins_sv; [|unfold nonneg; cbn; lia]. apply origins_dv. exact (gi_origin _ G).
  - split; [reflexivity|]. split; [reflexivity|]. split; [do 8 (split; [reflexivity|]); reflexivity|]. split; reflexivity.
Qed.

(** Moving in the menu. *)
Lemma menu_moves f i g : moves f -> ginv g -> current g = VMenu -> (0 <= i < Z.of_nat (length (menu (session g))))%Z ->
  exists g', (try_view VMenu f ;;? put (set_menu_idx i) ;;; ret true)%st g = (g', Ok true) /\ ginv g' /\ g_menu_idx g' = i /\ unchanged g g' /\
    session g' = session g /\ current g' = VMenu /\ g_cats g' = g_cats g /\ (forall n, shown g' n = shown g n) /\
    exists v v', view_of g VMenu = Some v /\ view_of g' VMenu = Some v' /\ f v = Some v'.
Proof.
  intros Hf G Hc Hi. destruct (mode_views g G) as (m & Hm). destruct (try_view_moves VMenu f g m Hf Hm (gi_origin _ G)) as (g1 & E1 & L1 & O1 & W1 & v1 & F1 & V1 & T1).
  rewrite (check_ok _ _ _ _ E1). exists (set_menu_idx i g1). split; [reflexivity|].
  assert (Hc1 : current g1 = VMenu) by (rewrite (lk_cur _ _ L1); exact Hc).
  assert (S1 : session g1 = session g) by (unfold session; now rewrite (lk_app _ _ L1)).
  assert (M1 := mode_look _ _ L1 (gi_mode _ G)). unfold mode in M1. rewrite Hc1 in M1. destruct M1 as ((A1 & A2 & A3 & A4) & B1 & C1).
  split.
  - constructor.
    + change (session (set_menu_idx i g1)) with (session g1). rewrite S1. exact (gi_reach _ G).
    + change (view_of g1 VVersion <> None). rewrite W1 by discriminate. exact (gi_version _ G).
    + change (view_of g1 VHelp <> None). rewrite W1 by discriminate. exact (gi_help _ G).
    + unfold mode. change (current (set_menu_idx i g1)) with (current g1). rewrite Hc1. split; [|split; [exact B1|exact C1]].
      split; [exact A1|]. split; [exact A2|]. split; [exact A3|]. right. change (session (set_menu_idx i g1)) with (session g1). rewrite S1. exact Hi.
    + exact O1.
  - split; [reflexivity|]. split.
    + split; [exact (f_equal a_world (lk_app _ _ L1))|]. split; [exact (f_equal a_conf (lk_app _ _ L1))|]. split; [exact (lk_vault _ _ L1)|]. split; [exact (lk_w _ _ L1)|].
      split; [exact (lk_h _ _ L1)|]. split; [exact (W1 VVersion ltac:(discriminate))|]. split; [exact (lk_rows _ _ L1)|]. split; [exact (lk_item _ _ L1)|exact (lk_ridx _ _ L1)].
    + split; [exact S1|]. split; [exact Hc1|]. split; [exact (lk_cats _ _ L1)|]. split; [exact (lk_shown _ _ L1)|]. exists m, v1. auto.
Qed.

Lemma unchanged_refl g : unchanged g g.
Proof. repeat split. Qed.

Definition menu_goal (i : Z) (f : view -> option view) (g g' : gui) : Prop :=
  ginv g' /\ g_menu_idx g' = i /\ unchanged g g' /\ session g' = session g /\ current g' = VMenu /\ g_cats g' = g_cats g /\ (forall n, shown g' n = shown g n) /\
  (g_menu_idx g' = g_menu_idx g -> g' = g) /\
  (g_menu_idx g' <> g_menu_idx g -> exists v v', view_of g VMenu = Some v /\ view_of g' VMenu = Some v' /\ f v = Some v').

Lemma cats_length g : open_menu g -> length (g_cats g) = length (menu (session g)).
Proof. intros (_ & -> & _). apply map_length. Qed.

Lemma menu_down_run g : ginv g -> current g = VMenu ->
  exists g', menu_down g = (g', Ok true) /\ menu_goal (Z.min (g_menu_idx g + 1) (Z.of_nat (length (menu (session g))) - 1)) line_down g g'.
Proof.
  intros G Hc. assert (M := gi_mode _ G). unfold mode in M. rewrite Hc in M. destruct M as (M & _). assert (Lc := cats_length g M). destruct M as (_ & _ & _ & Hi). unfold idx_ok in Hi.
  unfold menu_down. unfold get at 1. unfold bind at 1. unfold get at 1. unfold bind at 1. rewrite Lc. destruct (_ && _) eqn:E.
  - destruct (menu_moves line_down (g_menu_idx g + 1) g line_down_moves G Hc) as (g' & E' & H1 & H2 & H3 & H4 & H5 & H6 & H7 & H8); [lia|].
    exists g'. split; [exact E'|]. split; [exact H1|]. split; [lia|]. do 5 (split; [assumption|]). split; [intros X; lia|intros _; exact H8].
  - exists g. split; [reflexivity|]. split; [exact G|]. split; [lia|]. split; [apply unchanged_refl|]. do 4 (split; [auto|]). split; [auto|congruence].
Qed.
Lemma menu_up_run g : ginv g -> current g = VMenu ->
  exists g', menu_up g = (g', Ok true) /\ menu_goal (if (0 <? g_menu_idx g)%Z then g_menu_idx g - 1 else g_menu_idx g) line_up g g'.
Proof.
  intros G Hc. assert (M := gi_mode _ G). unfold mode in M. rewrite Hc in M. destruct M as ((_ & _ & _ & Hi) & _). unfold idx_ok in Hi.
  unfold menu_up. unfold get at 1. unfold bind at 1. destruct (0 <? g_menu_idx g)%Z eqn:E.
  - destruct (menu_moves line_up (g_menu_idx g - 1) g line_up_moves G Hc) as (g' & E' & H1 & H2 & H3 & H4 & H5 & H6 & H7 & H8); [lia|].
    exists g'. split; [exact E'|]. split; [exact H1|]. split; [lia|]. do 5 (split; [assumption|]). split; [intros X; lia|intros _; exact H8].
  - exists g. split; [reflexivity|]. split; [exact G|]. split; [lia|]. split; [apply unchanged_refl|]. do 4 (split; [auto|]). split; [auto|congruence].
Qed.

Lemma look_inv g g' : look g g' -> origins g' -> ginv g -> ginv g'.
Proof.
  intros L Ho G. constructor.
  - unfold session. rewrite (lk_app _ _ L). exact (gi_reach _ G).
  - rewrite (shown_none g g' VVersion (lk_shown _ _ L VVersion)). exact (gi_version _ G).
  - rewrite (shown_none g g' VHelp (lk_shown _ _ L VHelp)). exact (gi_help _ G).
  - exact (mode_look _ _ L (gi_mode _ G)).
  - exact Ho.
Qed.

Lemma open_entry_inv O g : oracles_ok O -> ginv g -> current g = VMenu -> g_menu_idx g <> (-1)%Z -> roomy g ->
  exists g', open_entry U tz O g = (g', Ok true) /\ ginv g' /\ current g' = VItems /\ g_app g' = g_app g /\ g_menu_idx g' = g_menu_idx g /\ g_cats g' = g_cats g /\
    g_rows g' = rows_of U O (g_cats g) (g_menu_idx g) (session g) /\ g_row_idx g' = (match g_rows g' with [] => -1 | _ => 0 end)%Z /\ view_of g' VMenu = view_of g VMenu /\ ui_w (g_ui g') = ui_w (g_ui g) /\ ui_h (g_ui g') = ui_h (g_ui g) /\
    (exists v, view_of g' VItems = Some v /\
       (8 <= ui_w (g_ui g) -> 11 <= ui_h (g_ui g) -> v_cy v = 0 /\ v_oy v = 0 /\ v_cx v = 0 /\ v_w v = (ui_w (g_ui g) - 2) ÷ 2 - 2 /\ v_h v = ui_h (g_ui g) - 10))%Z.
Proof.
  intros HO G Hc Hi Hr. destruct (open_entry_run O g G Hc Hi Hr) as (g' & E & H1 & H2 & H3 & H4 & H5 & H6 & H7 & H8 & H9 & H10 & H11 & H12 & (v & V1 & V2 & V3) & H14 & H15 & H16).
  exists g'. split; [exact E|]. assert (S : session g' = session g) by (unfold session; now rewrite H2).
  assert (M := gi_mode _ G). unfold mode in M. rewrite Hc in M. destruct M as ((A1 & A2 & A3 & A4) & _ & [P1 P2]).
  split; [|do 9 (split; [assumption || (apply H16; discriminate)|]); exists v; split; [exact V1|exact V3]].
  constructor.
  - rewrite S. exact (gi_reach _ G).
  - rewrite H16 by discriminate. exact (gi_version _ G).
  - unfold shown in H15. destruct (view_of g' VHelp); [discriminate|discriminate H15].
  - unfold mode. rewrite H1. split; [|split].
    + unfold open_menu, shown. rewrite S, H3, H4, (H16 VMenu) by discriminate. exact (conj A1 (conj A2 (conj A3 A4))).
    + unfold open_list. rewrite S, H3, H4. split; [exact Hi|]. split; [exists O; auto|]. split.
      * rewrite H11. unfold idx_ok. destruct (g_rows g'); cbn [length]; [left; auto|right; lia].
      * split; [unfold shown; rewrite V1; cbn [option_map]; now rewrite V2|exact H14].
    + unfold no_prompt. rewrite !H16 by discriminate. auto.
  - exact H12.
Qed.

(** The outcome of the update check. *)
Definition update_check : act (eres update_info) := (m <- the_conf ;; on_world (facade_check m true dir))%st.

Lemma update_check_vault a : a_vault (fst (update_check a)) = a_vault a.
Proof.
  unfold update_check, the_conf, on_world, bind. destruct a as [w m s]; cbn [a_conf a_world a_vault].
  destruct (facade_check m true dir w) as [w' []]; reflexivity.
Qed.

Lemma version_update_run g v : view_of g VVersion = Some v ->
  match update_check (g_app g) with
  | (a, Ok r) => exists t, version_update dir g = (set_checking false (sv VVersion (write t v) (set_app a g)), Ok tt)
  | (a, Panic) => version_update dir g = (set_app a g, Panic)
  | (a, Exit n) => version_update dir g = (set_app a g, Exit n)
  end.
Proof.
  intros Hv. unfold version_update. fold update_check.
  assert (Eo : on_app update_check g = (set_app (fst (update_check (g_app g))) g, snd (update_check (g_app g)))) by (unfold on_app; now destruct (update_check (g_app g))).
  destruct (update_check (g_app g)) as [a [r| |n]]; cbn [fst snd] in Eo.
  - rewrite (bind_ok _ _ _ _ _ Eo). eexists. rewrite (bind_ok _ _ _ _ _ (on_view_sv VVersion _ (set_app a g) v Hv)). reflexivity.
  - unfold bind. now rewrite Eo.
  - unfold bind. now rewrite Eo.
Qed.

Lemma version_inv g v a ch : ginv g -> a_vault a = a_vault (g_app g) -> view_of g VVersion = Some v -> forall t, ginv (set_checking ch (sv VVersion (write t v) (set_app a g))).
Proof.
  intros G Ha Hv t. assert (S : session (set_checking ch (sv VVersion (write t v) (set_app a g))) = session g) by exact Ha.
  assert (Sa : session (set_app a g) = session g) by exact Ha.
  constructor.
  - rewrite S. exact (gi_reach _ G).
  - discriminate.
  - exact (gi_help _ G).
  - assert (M := gi_mode _ G). unfold mode, closed_menu, open_menu, no_list, open_list, no_prompt in *. rewrite S.
    change (current (set_checking ch (sv VVersion (write t v) (set_app a g)))) with (current g).
    assert (Ei : selected_item (set_checking ch (sv VVersion (write t v) (set_app a g))) = selected_item g) by (apply selected_of; [reflexivity|reflexivity|exact S]).
    rewrite Ei. exact M.
  - intros n w Hw. change (view_of (sv VVersion (write t v) g) n = Some w) in Hw. revert Hw. apply origins_sv; [exact (gi_origin _ G)|exact (gi_origin _ G _ _ Hv)].
Qed.

Lemma world_inv w g : ginv g -> ginv (set_app (MkApp w (a_conf (g_app g)) (a_vault (g_app g))) g).
Proof. intros [H1 H2 H3 H4 H5]. constructor; assumption. Qed.
Lemma size_inv w h g : ginv g -> ginv (set_ui (MkUi w h (ui_views (g_ui g)) (ui_cur (g_ui g))) g).
Proof. intros [H1 H2 H3 H4 H5]. constructor; assumption. Qed.
Lemma typed_inv t g v : ginv g -> current g = VPrompt -> view_of g VPrompt = Some v -> ginv (sv VPrompt (write t (clear v)) g).
Proof.
  intros G Hc Hv. assert (M := gi_mode _ G). unfold mode in M. rewrite Hc in M. destruct M as (M1 & M2 & M3 & M4). constructor.
  - exact (gi_reach _ G).
  - exact (gi_version _ G).
  - exact (gi_help _ G).
  - unfold mode. change (current (sv VPrompt (write t (clear v)) g)) with (current g). rewrite Hc. split; [exact M1|]. split; [exact M2|]. split; [discriminate|exact M4].
  - apply origins_sv; [exact (gi_origin _ G)|exact (gi_origin _ G _ _ Hv)].
Qed.

Lemma scroll_run f g : moves f -> ginv g -> current g = VDetails ->
  exists g', try_view VDetails f g = (g', Ok true) /\ ginv g' /\ look g g'.
Proof.
  intros Hf G Hc. assert (M := gi_mode _ G). unfold mode in M. rewrite Hc in M. destruct M as (_ & (_ & _ & _ & _ & M5) & _).
  destruct (shown_view _ _ _ M5) as (d & Hd & _).
  destruct (try_view_moves VDetails f g d Hf Hd (gi_origin _ G)) as (g1 & E1 & L1 & O1 & _). exists g1. split; [exact E1|]. split; [exact (look_inv _ _ L1 O1 G)|exact L1].
Qed.

(** The ways to die. *)
Definition tab_on_nothing (i : input) (g : gui) : Prop := i = Press KTab /\ current g = VItems /\ g_rows g = [].
Definition opening (O : oracles) (i : input) (g : gui) (r : res (state * option goerr)) : Prop :=
  i = Press KEnter /\ current g = VPrompt /\ unlock C U tz O (disk_of g) (g_vault g) (trim_space (typed g)) (session g) = r.
Definition checking (i : input) (g : gui) (r : res (eres update_info)) : Prop :=
  i = Checked /\ g_checking g = true /\ snd (update_check (g_app g)) = r.

Lemma handle_run O i g : oracles_ok O -> ginv g ->
  match handle C U tz O dir center i g with
  | (g', Ok true) => ginv g'
  | (g', Ok false) => ginv g' /\ ~ roomy g'
  | (_, Panic) => tab_on_nothing i g \/ opening O i g Panic \/ checking i g Panic
  | (_, Exit n) => opening O i g (Exit n) \/ checking i g (Exit n)
  end.
Proof.
  intros HO G. destruct i as [k|t|w h| |d].
  - unfold handle. unfold get at 1. unfold bind at 1. change (ui_cur (g_ui g)) with (current g).
    destruct (current g) eqn:Hc; try (destruct k; exact G).
    + destruct k; try exact G.
      * destruct (menu_up_run g G Hc) as (g' & E & H & _). unfold on_key. rewrite E. exact H.
      * destruct (menu_down_run g G Hc) as (g' & E & H & _). unfold on_key. rewrite E. exact H.
      * unfold on_key. destruct (Z.eq_dec (g_menu_idx g) (-1)) as [Ei|Ei].
        { unfold open_entry. unfold get at 1. unfold bind at 1. rewrite Ei. exact G. }
        destruct (roomy_dec g) as [Hr|Hr].
        -- destruct (open_entry_inv O g HO G Hc Ei Hr) as (g' & E & H & _). rewrite E. exact H.
        -- rewrite (open_entry_small O g Ei Hr). split; [exact G|exact Hr].
      * unfold on_key. destruct (Z.eq_dec (g_menu_idx g) (-1)) as [Ei|Ei].
        { unfold open_entry. unfold get at 1. unfold bind at 1. rewrite Ei. exact G. }
        destruct (roomy_dec g) as [Hr|Hr].
        -- destruct (open_entry_inv O g HO G Hc Ei Hr) as (g' & E & H & _). rewrite E. exact H.
        -- rewrite (open_entry_small O g Ei Hr). split; [exact G|exact Hr].
      * destruct (menu_lock_run g G Hc) as (g' & E & H & _). unfold on_key. rewrite E. exact H.
    + destruct k; try exact G.
      * destruct (row_up_run g G Hc) as (g' & E & (H & _) & _). unfold on_key. rewrite E. exact H.
      * destruct (row_down_run g G Hc) as (g' & E & (H & _) & _). unfold on_key. rewrite E. exact H.
      * destruct (back_inv g G (or_introl Hc)) as [E H]. unfold on_key. rewrite E. exact H.
      * assert (H := reveal_run g G Hc). unfold on_key. destruct (selected_row g).
        -- destruct H as (g' & E & H & _). rewrite E. exact H.
        -- destruct H as [E H]. rewrite E. left. repeat split; assumption.
      * destruct (back_inv g G (or_introl Hc)) as [E H]. unfold on_key. rewrite E. exact H.
      * destruct (items_lock_run g G (or_introl Hc)) as (g' & E & H & _). unfold on_key. rewrite E. exact H.
    + destruct k; try exact G.
      * destruct (scroll_run scroll_up g scroll_up_moves G Hc) as (g' & E & H & _). unfold on_key. rewrite E. exact H.
      * destruct (scroll_run scroll_down g scroll_down_moves G Hc) as (g' & E & H & _). unfold on_key. rewrite E. exact H.
      * destruct (scroll_run scroll_left g scroll_left_moves G Hc) as (g' & E & H & _). unfold on_key. rewrite E. exact H.
      * destruct (scroll_run scroll_right g scroll_right_moves G Hc) as (g' & E & H & _). unfold on_key. rewrite E. exact H.
      * destruct (cover_run g G Hc) as (g' & E & H & _). unfold on_key. rewrite E. exact H.
      * destruct (items_lock_run g G (or_intror Hc)) as (g' & E & H & _). unfold on_key. rewrite E. exact H.
    + destruct k; try exact G. unfold on_key. assert (H := enter_password_run O g HO G Hc).
      destruct (unlock C U tz O (disk_of g) (g_vault g) (trim_space (typed g)) (session g)) as [[s' [e|]]| |n] eqn:Eu.
      * destruct H as (g' & E & H & _). rewrite E. exact H.
      * destruct H as (g' & E & H & _). rewrite E. exact H.
      * destruct H as (g' & E). rewrite E. right. left. repeat split; assumption.
      * destruct H as (g' & E). rewrite E. left. repeat split; assumption.
    + destruct k; try exact G. destruct (close_error_run g G Hc) as (g' & E & H & _). unfold on_key. rewrite E. exact H.
  - unfold handle. unfold get at 1. unfold bind at 1. change (ui_cur (g_ui g)) with (current g). destruct (current g) eqn:Hc; try exact G.
    assert (M := gi_mode _ G). unfold mode in M. rewrite Hc in M. destruct M as (_ & _ & M & _). destruct (view_of g VPrompt) as [v|] eqn:Ev; [|congruence].
    rewrite (on_view_sv VPrompt _ g v Ev). exact (typed_inv t g v G Hc Ev).
  - exact (size_inv w h g G).
  - unfold handle. unfold get at 1. unfold bind at 1. destruct (g_checking g) eqn:Ec; [|exact G].
    assert (Hv := gi_version _ G). destruct (view_of g VVersion) as [v|] eqn:Ev; [|congruence]. assert (H := version_update_run g v Ev).
    assert (Ha := update_check_vault (g_app g)). destruct (update_check (g_app g)) as [a [r| |n]] eqn:Eu.
    + destruct H as [t E]. rewrite (bind_ok _ _ _ _ _ E). exact (version_inv g v a false G Ha Ev t).
    + unfold bind. rewrite H. right. right. repeat split; [assumption|now rewrite Eu].
    + unfold bind. rewrite H. right. repeat split; [assumption|now rewrite Eu].
  - exact (world_inv (set_disk d (a_world (g_app g))) g G).
Qed.

(** ** One event *)

Lemma step_run O i g : oracles_ok O -> ginv g ->
  match gui_step C U tz O dir center i g with
  | (g', Ok true) => ginv g' /\ exists g1, handle C U tz O dir center i g = (g1, Ok true) /\ ginv g1 /\ resized g1 g'
  | (g', Ok false) => i = Press KQuit /\ g' = g
  | (_, Panic) => tab_on_nothing i g \/ opening O i g Panic \/ checking i g Panic
  | (g', Exit n) => ~ roomy g' \/ opening O i g (Exit n) \/ checking i g (Exit n)
  end.
Proof.
  intros HO G. assert (H := handle_run O i g HO G).
  assert (E : i = Press KQuit \/ gui_step C U tz O dir center i g = (ok <- (handle C U tz O dir center i ;;? layout center) ;; if ok then ret true else os_exit 1)%st g).
  { destruct i as [[]| | | |]; auto. }
  destruct E as [->|E]; [split; reflexivity|]. rewrite E. clear E. unfold bind at 1. unfold check. unfold bind at 1.
  destruct (handle C U tz O dir center i g) as [g1 [[|]| |n]].
  - destruct (mode_views g1 H) as (m & Hm). assert (Hm' : view_of g1 VMenu <> None) by congruence.
    destruct (layout_ok g1 (gi_version _ H) (gi_help _ H) Hm') as (g2 & ok & E2 & R & Hf). rewrite E2. destruct ok.
    + split; [exact (resized_inv _ _ R H)|]. exists g1. auto.
    + left. intros X. apply (Hf eq_refl). unfold roomy in *. rewrite (rs_w _ _ R), (rs_h _ _ R) in X. exact X.
  - left. exact (proj2 H).
  - exact H.
  - right. exact H.
Qed.

(** Any number of events. *)
Lemma play_inv es g : Forall (fun e => oracles_ok (fst e)) es -> ginv g ->
  match play C U tz dir center es g with (g', Ok _) => ginv g' | _ => True end.
Proof.
  revert g. induction es as [|[Or i] es IH]; intros g Hes G; [exact G|].
  apply Forall_cons_iff in Hes. destruct Hes as [HO Hes]. cbn [fst] in HO. assert (H := step_run Or i g HO G).
  cbn [play]. unfold bind at 1. destruct (gui_step C U tz Or dir center i g) as [g1 [[|]| |n]]; try exact Logic.I.
  - exact (IH g1 Hes (proj1 H)).
  - destruct H as [_ ->]. exact G.
Qed.

(** ** The start *)

Lemma pick_vault_session path a a' r : pick_vault path a = (a', r) -> reachable C U tz (a_vault a) -> is_unlocked (a_vault a) = false ->
  reachable C U tz (a_vault a') /\ is_unlocked (a_vault a') = false.
Proof.
  intros H Hr Hl.
  assert (K : forall vault a0 a1 r1, a_vault a0 = a_vault a ->
     (e <- on_vault (fun D s => validate D vault s) ;;
      match e with Some err => say (err_text err) ;;; os_exit 1 | None => ret vault end)%st a0 = (a1, r1) ->
     reachable C U tz (a_vault a1) /\ is_unlocked (a_vault a1) = false).
  { intros vault a0 a1 r1 E0. unfold bind at 1, on_vault. destruct (validate (w_disk (a_world a0)) vault (a_vault a0)) as [[s' e]| |n] eqn:Ev.
    - assert (R' : reachable C U tz s').
      { apply (step_reachable forwards (w_disk (a_world a0)) (OpValidate vault) (a_vault a) s' (RError e) forwards_ok Hr). rewrite E0 in Ev. cbn [step]. now rewrite Ev. }
      assert (L' : is_unlocked s' = false).
      { with_strategy transparent [is_unlocked] unfold is_unlocked in *. rewrite <- E0 in Hl. revert Ev. unfold validate.
        destruct (stat (w_disk (a_world a0)) vault) as [[]|]; try (intros X; assert (s' = a_vault a0) as -> by congruence; exact Hl).
        destruct (stat (w_disk (a_world a0)) (profile_path vault)) as [[]|]; try (intros X; assert (s' = a_vault a0) as -> by congruence; exact Hl).
        intros X. apply rbind_ok in X. destruct X as (p & _ & X).
        assert (s' = MkState p (st_items (a_vault a0)) (st_keys (a_vault a0)) (st_reg (a_vault a0))) as -> by congruence. exact Hl. }
      destruct e as [e|]; intros X.
      + unfold bind, say, on_world, os_exit in X. cbn in X. assert (a_vault a1 = s') as -> by (injection X as <- _; reflexivity). auto.
      + assert (a_vault a1 = s') as -> by (injection X as <- _; reflexivity). auto.
    - intros X. assert (a1 = a0) as -> by congruence. rewrite E0. auto.
    - intros X. assert (a1 = a0) as -> by congruence. rewrite E0. auto. }
  unfold pick_vault in H. unfold bind at 1 in H. destruct path as [|c p].
  - unfold config_now, the_conf, bind, lift, ret in H. destruct (get_config (a_conf a)) as [c| |n]; cbn in H.
    + revert H. apply K. reflexivity.
    + assert (a' = a) as -> by congruence. auto.
    + assert (a' = a) as -> by congruence. auto.
  - cbn in H. revert H. apply K. reflexivity.
Qed.

Lemma first_layout a vault w h : reachable C U tz (a_vault a) -> is_unlocked (a_vault a) = false ->
  exists g ok, layout center (blank_gui a vault w h) = (g, Ok ok) /\
    (if ok : bool then ginv g /\ current g = VPrompt /\ shown g VPrompt = Some [] /\ shown g VMenu = Some [] /\ g_app g = a /\ g_vault g = vault /\ ui_w (g_ui g) = w /\ ui_h (g_ui g) = h /\
       g_rows g = [] /\ g_item g = None /\ view_of g VItems = None /\ view_of g VDetails = None /\ view_of g VError = None /\
       shown g VVersion = Some (b "1Pass v" ++ app_version ++ b " ") /\ shown g VHelp = Some (help_text menu_help) /\
       (exists v, view_of g VMenu = Some v /\ v_cx v = 0 /\ v_cy v = 0 /\ v_ox v = 0 /\ v_oy v = 0)%Z
     else ~ (2 <= w /\ 8 <= h)%Z).
Proof.
  intros Hr Hl. set (g0 := blank_gui a vault w h).
  unfold layout.
  destruct ((w - 1 <=? 0) || (2 <=? 0))%Z eqn:E1.
  { exists g0, false. split; [|lia]. apply check_false. unfold version_layout. unfold get at 1. unfold bind at 1. erewrite bind_ok; [|apply set_view_bad; exact E1]. reflexivity. }
  destruct ((w - 1 <=? 0) || (h - 1 <=? h - 3))%Z eqn:E2; [lia|].
  set (v1 := MkView (w - 1 - 0 - 1) (2 - 0 - 1) [] 0 0 0 0).
  set (g1 := set_checking true (sv VVersion (write (b "1Pass v" ++ app_version ++ b " ") v1) (sv VVersion v1 g0))).
  assert (S1 : version_layout g0 = (g1, Ok true)).
  { unfold version_layout. unfold get at 1. unfold bind at 1. erewrite bind_ok; [|apply set_view_new; [reflexivity|exact E1]]. reflexivity. }
  rewrite (check_ok _ _ _ _ S1).
  set (v2 := MkView (w - 1 - 0 - 1) (h - 1 - (h - 3) - 1) [] 0 0 0 0).
  set (g2 := sv VHelp (write (help_text []) (clear v2)) (sv VHelp v2 g1)).
  assert (S2 : help_layout g1 = (g2, Ok true)).
  { unfold help_layout. unfold get at 1. unfold bind at 1. erewrite bind_ok; [|apply set_view_new; [reflexivity|exact E2]]. reflexivity. }
  rewrite (check_ok _ _ _ _ S2).
  destruct ((w - 1 <=? 0) || (h - 4 <=? 3))%Z eqn:E3.
  { exists g2, false. split; [|lia]. unfold menu_layout. unfold get at 1. unfold bind at 1. erewrite bind_ok; [|apply set_view_bad; exact E3]. reflexivity. }
  set (v3 := MkView (w - 1 - 0 - 1) (h - 4 - 3 - 1) [] 0 0 0 0).
  set (g3 := scur VMenu (sv VMenu v3 g2)).
  set (pv := MkView (w ÷ 2 + 30 - (w ÷ 2 - 30) - 1) (h ÷ 2 + 1 - (h ÷ 2 - 1) - 1) [] 0 0 0 0).
  set (g4 := scur VPrompt (sv VPrompt pv g3)).
  set (g5 := sv VHelp (write (help_text menu_help) (clear (write (help_text []) (clear v2)))) (set_help menu_help g4)).
  exists g5, true. split.
  { unfold menu_layout. unfold get at 1. unfold bind at 1. erewrite bind_ok; [|apply set_view_new; [reflexivity|exact E3]]. cbv beta iota. fold v3.
    change (w - 1 - 0 - 1)%Z with (v_w v3).
    rewrite (check_ok _ _ _ _ (set_current_run VMenu (sv VMenu v3 g2) v3 eq_refl)). fold g3.
    assert (E4 : menu_update center g3 = (g4, Ok true)).
    { unfold menu_update. unfold get at 1. unfold bind at 1. change (a_vault (g_app g3)) with (a_vault a). rewrite Hl.
      unfold prompt_layout. unfold get at 1. unfold bind at 1. erewrite bind_ok; [|apply set_view_new; [reflexivity|lia]]. reflexivity. }
    rewrite (check_ok _ _ _ _ E4). exact (show_help_run menu_help g4 _ eq_refl). }
  split; [|do 14 (split; [reflexivity|]); exists v3; repeat split].
  constructor.
  - exact Hr.
  - discriminate.
  - discriminate.
  - split; [split; [exact Hl|repeat split]|]. split; [split; reflexivity|]. split; [discriminate|reflexivity].
  - intros n v Hv. destruct n; cbn in Hv; try discriminate Hv; injection Hv as <-; cbn; lia.
Qed.

Lemma start_inv path w h a g : reachable C U tz (a_vault a) -> is_unlocked (a_vault a) = false -> start_gui center path w h a = (g, Ok true) ->
  ginv g /\ current g = VPrompt.
Proof.
  intros Hr Hl. unfold start_gui. destruct (pick_vault path a) as [a' r] eqn:Ep. destruct (pick_vault_session _ _ _ _ Ep Hr Hl) as [Hr' Hl'].
  destruct r as [v| |n]; try discriminate.
  destruct (first_layout a' v w h Hr' Hl') as (g1 & ok & E & H). unfold bind. rewrite E. destruct ok; [|discriminate].
  intros X. assert (g1 = g) as <- by (unfold ret in X; congruence). tauto.
Qed.

Lemma start_answer path w h a g x : start_gui center path w h a = (g, Ok x) -> x = true.
Proof.
  unfold start_gui. destruct (pick_vault path a) as [a' [v| |n]]; try discriminate.
  unfold bind. destruct (layout center (blank_gui a' v w h)) as [g1 [[]| |]]; unfold ret, os_exit, lift; intros X; congruence || discriminate X.
Qed.

End Inv.
