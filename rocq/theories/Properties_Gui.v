(** Properties of the GUI (C68-C76). *)
From Verif Require Import Base Utf8 Spec_Trim Spec_Numeral GoStrings GoStringsProof FieldsProof Json Civil Crypto Path Fs Domain DomainProof Repos Session SessionProof
  World WorldProof Config Updater Cli CliProof CliEvents Spec_Vault Spec_Writer Spec_Domain VaultProof Toy ToyYaml Gui Spec_Gui GuiProof GuiRun.
From Verif Require Import Properties_Session Properties_Cli Properties_Show Properties_End.
From Coq Require Import Sorting.Sorted.

Local Notation newline := World.newline.
Local Notation details_lines := Gui.details_lines.

(** ** Specification *)

(** The terminal is large enough for all widgets. *)
Definition fits (g : gui) : Prop := (6 <= ui_w (g_ui g) /\ 10 <= ui_h (g_ui g))%Z.

(** The entries on the screen: none while the vault is locked. *)
Definition entries (g : gui) : list entry := if is_unlocked (session g) then entries_for (items_list (st_items (session g))) else [].

(** The entry that is selected. *)
Definition selected_entry (g : gui) : option entry :=
  if (g_menu_idx g <? 0)%Z then None else nth_error (entries g) (Z.to_nat (g_menu_idx g)).

(** The text of an item with all its secrets. *)
Definition full_text (tz : Z -> Z) (i : item) : bytes := join_lines (details_lines tz false i).

(** What the user sees and what the next key acts on are the same. *)
Definition same_screen (g g' : gui) : Prop :=
  session g' = session g /\ current g' = current g /\ g_menu_idx g' = g_menu_idx g /\ g_row_idx g' = g_row_idx g /\ g_rows g' = g_rows g /\
  forall n, shown g' n = shown g n /\
    forall v v', view_of g n = Some v -> view_of g' n = Some v' ->
      v_cx v' = v_cx v /\ v_cy v' = v_cy v /\ v_ox v' = v_ox v /\ v_oy v' = v_oy v.

(** ** Lemmas *)

Lemma belongs_eq e i : belongs e i = cat_matches (entry_category e) i && Bool.eqb (it_trashed i) (entry_trashed e).
Proof.
  destruct e; unfold belongs, cat_matches, entry_category, entry_trashed, cat_eqb; destruct (it_trashed i); cbn [negb Bool.eqb andb]; try reflexivity.
  - now rewrite andb_false_r.
  - now rewrite andb_true_r.
Qed.

Lemma count_belongs s e : entry_count s e = length (filter (belongs e) (items_list (st_items s))).
Proof.
  unfold entry_count, count_items, count_by. f_equal. apply filter_ext. intros i. symmetry. apply belongs_eq.
Qed.

Lemma exists_count {A} (p : A -> bool) l : existsb p l = negb (Nat.eqb (length (filter p l)) 0).
Proof. induction l as [|x l IH]; [reflexivity|]. cbn [existsb filter]. destruct (p x); [reflexivity|exact IH]. Qed.

Lemma menu_entries s : menu s = entries_for (items_list (st_items s)).
Proof. unfold menu, entries_for. apply filter_ext. intros e. now rewrite count_belongs, exists_count. Qed.

Lemma menu_text_lines center w s : menu_text center w s = menu_lines center w (items_list (st_items s)).
Proof.
  unfold menu_text, menu_lines. rewrite menu_entries. f_equal. apply map_ext. intros e. unfold entry_line. now rewrite count_belongs.
Qed.

Lemma masked_details tz i : details_lines tz true i = details_lines tz false (masked i).
Proof.
  unfold details_lines, masked. cbn [it_cat it_title it_updated it_created it_trashed it_url it_sections it_notes].
  f_equal. f_equal. f_equal.
  - destruct (it_sections i) as [|s ss]; [reflexivity|]. cbn [map].
    rewrite <- (map_cons (fun s => MkSection (sec_title s) (map (fun f => MkField (fld_name f) mask) (sec_fields s)))). f_equal.
    induction (s :: ss) as [|x l IH]; [reflexivity|]. cbn [map flat_map sec_title sec_fields]. rewrite IH. f_equal. f_equal. f_equal. f_equal.
    rewrite map_map. reflexivity.
  - destruct (it_notes i); [reflexivity|]. destruct (it_sections i); reflexivity.
Qed.

Lemma resized_same g g' : resized g g' -> same_screen g g'.
Proof.
  intros R. unfold same_screen, session. rewrite (rs_app _ _ R), (rs_cur _ _ R), (rs_midx _ _ R), (rs_ridx _ _ R), (rs_rows _ _ R).
  do 5 (split; [reflexivity|]). intros n. assert (V := rs_views _ _ R n). unfold shown.
  destruct (view_of g n) as [v|], (view_of g' n) as [v'|]; try contradiction.
  - destruct V as (V1 & V2 & V3 & V4 & V5). cbn [option_map]. split; [now rewrite V1|]. intros x y Hx Hy.
    assert (x = v) as -> by congruence. assert (y = v') as -> by congruence. auto.
  - split; [reflexivity|discriminate].
Qed.

Lemma pair_eq {A B} (x x' : A) (y y' : B) : (x, y) = (x', y') -> x = x' /\ y = y'.
Proof. intros H. split; congruence. Qed.

Section Demo.
(** The GUI on the demo vault with a terminal of 80 by 24. *)
Definition demo_gui (w : world) (es : list input) : gui * res bool :=
  gui_process toy_crypto latin1 utc toy_yaml (b "/c") (fun t _ => t) [] 80 24 (map (fun i => (forwards, i)) es) w.
Definition demo_running : gui -> Prop := running toy_crypto latin1 utc toy_yaml (b "/c") (fun t _ => t).

Lemma demo_runs w es : snd (demo_gui w es) = Ok true -> demo_running (fst (demo_gui w es)).
Proof.
  intros H. exists [], 80%Z, 24%Z, (map (fun i => (forwards, i)) es), w. split.
  - apply Forall_map. apply Forall_forall. intros i _. exact forwards_ok.
  - change (demo_gui w es = (fst (demo_gui w es), Ok true)). rewrite <- H. now destruct (demo_gui w es).
Qed.

Definition enter_freddy : list input := [Typed (b "freddy"); Press KEnter].
(** The same vault with one item, which is not in the trash. *)
Definition one_item_world : world :=
  let w := vault_world (b "/v") [] in
  set_disk (MkDisk (([b "c"], NDir) ::
     ([config_file; b "c"], NFile (match y_print toy_yaml (off_settings (b "/v")) with Some s => s | None => [] end) 420)
     :: d_fs (write_disk toy_crypto (b "v") (b "freddy") demo_secrets [(b "band_0.js", [demo_login])])) [] (fun _ => false)) w.
End Demo.

(** ** C68 *)

(** Whatever happened before: while the vault is unlocked the menu is made from exactly the items the
    vault holds. *)
Theorem C68_menu_describes_vault : forall C U tz Y dir center g,
  running C U tz Y dir center g -> is_unlocked (session g) = true ->
  exists items w, (forall i, In i items <-> held (session g) i) /\ NoDup (map it_uid items) /\
    shown g VMenu = Some (menu_lines center w items).
Proof.
  intros C U tz Y dir center g R Hu. apply running_inv in R. assert (M := gi_mode _ _ _ _ _ R).
  assert (Hr := gi_reach _ _ _ _ _ R). exists (items_list (st_items (session g))).
  assert (H : exists w, shown g VMenu = Some (menu_text center w (session g))).
  { unfold mode, closed_menu, open_menu in M. destruct (current g); try contradiction; try tauto; destruct M as ((X & _) & _); congruence. }
  destruct H as [w H]. exists w. split; [|split].
  - intros i. symmetry. apply (held_spec C U tz (session g) Hr).
  - apply (inv_uids _ (reachable_inv C U tz _ Hr)).
  - now rewrite <- menu_text_lines.
Qed.
Print Assumptions C68_menu_describes_vault.

Example C68_example :
  let g := fst (demo_gui (vault_world (b "/v") []) enter_freddy) in
  demo_running g /\ is_unlocked (session g) = true /\
  shown g VMenu = Some (b "All (2)" ++ newline ++ b "Login (1)" ++ newline ++ b "Credit Card (1)" ++ newline ++ b "Trashed (1)").
Proof. split; [apply demo_runs; vm_compute; reflexivity|]. split; vm_compute; reflexivity. Qed.

(** The numbers in the menu: each entry's line ends with the number of its items, written in the usual way. *)
Theorem C68_counts_in_digits : forall center w items, exists numbers,
  menu_lines center w items = concat (map (fun e => center (entry_name e ++ b " (" ++ numbers e ++ b ")") w
    ++ match e with Trash => [] | _ => newline end) (entries_for items)) /\
  forall e, usual_numeral (numbers e) (N.of_nat (length (filter (belongs e) items))).
Proof.
  intros center w items. exists (fun e => itoa (Z.of_nat (length (filter (belongs e) items)))). split; [reflexivity|]. intros e. apply usual_itoa.
Qed.
Print Assumptions C68_counts_in_digits.

(** A password is typed for a vault that is stored on the disk and whose profile is still the one that was
    read at the start: the menu counts the stored items. *)
Theorem C68_menu_of_stored_vault : forall C U, crypto_ok C -> unicode_ok U ->
  forall tz Y dir center g O password ks items s0,
  running C U tz Y dir center g -> oracles_ok O -> current g = VPrompt -> fits g ->
  vault_at C U tz (w_disk (a_world (g_app g))) (g_vault g) password ks items ->
  validate (w_disk (a_world (g_app g))) (g_vault g) init = Ok (s0, None) -> st_profile s0 = st_profile (session g) ->
  trimmed (typed g) password ->
  exists g' items' w, gui_step C U tz O dir center (Press KEnter) g = (g', Ok true) /\ running C U tz Y dir center g' /\
    current g' = VMenu /\ is_unlocked (session g') = true /\ Permutation items' items /\
    shown g' VMenu = Some (menu_lines center w items') /\ forall i, held (session g') i <-> In i items.
Proof.
  intros C U HC HU tz Y dir center g O password ks items s0 R HO Hc Hfit Hv Hval Hp Ht. apply trimmed_eq in Ht. symmetry in Ht.
  assert (G := running_inv _ _ _ _ _ _ _ R). assert (Hinv := reachable_inv _ _ _ _ (gi_reach _ _ _ _ _ G)).
  assert (M := gi_mode _ _ _ _ _ G). unfold mode in M. rewrite Hc in M. destruct M as ((L1 & _) & _).
  assert (Hk : st_keys (session g) = None) by (unfold is_unlocked in L1; now destruct (st_keys (session g))).
  assert (Hit := inv_locked _ Hinv Hk).
  set (sn := MkState None None (st_keys (session g)) (st_reg (session g))).
  destruct (VaultProof.open_vault C HC U HU tz O _ _ _ _ _ sn HO Hv) as (p & l' & H1 & H2 & Hperm); try reflexivity; [exact (inv_reg _ Hinv)|].
  cbn [sn st_keys st_reg] in H1, H2.
  assert (Ep : st_profile (session g) = Some p).
  { rewrite (validate_from _ _ sn init eq_refl eq_refl), Hval in H1. injection H1 as E. rewrite <- Hp. cbn in E. congruence. }
  assert (Es : session g = MkState (Some p) None (st_keys (session g)) (st_reg (session g))) by (destruct (session g); cbn in *; congruence).
  assert (H := enter_password_run C U tz dir center O g HO G Hc). unfold disk_of in H. rewrite Ht, Es, H2 in H.
  destruct H as (g1 & E1 & G1 & C1 & I1 & K1 & (Z1 & Z2 & Z3 & Z4 & Z5 & _) & _).
  assert (Hh : handle C U tz O dir center (Press KEnter) g = (g1, Ok true)).
  { unfold handle, get, bind. change (ui_cur (g_ui g)) with (current g). rewrite Hc. exact E1. }
  destruct (step_handle C U tz dir center O (Press KEnter) g g1 G HO ltac:(discriminate) Hh) as [(g' & Es' & Rs)|(g' & _ & Hn)].
  2:{ exfalso. apply Hn. unfold roomy, fits in *. now rewrite Z4, Z5. }
  exists g', l'. assert (R' := running_step _ _ _ _ _ _ _ _ _ _ R HO Es').
  assert (C' : current g' = VMenu) by (rewrite (rs_cur _ _ Rs); exact C1).
  assert (Si : session g' = session g1) by (unfold session; now rewrite (rs_app _ _ Rs)).
  assert (M := gi_mode _ _ _ _ _ (running_inv _ _ _ _ _ _ _ R')). unfold mode in M. rewrite C' in M. destruct M as ((U1 & _ & [w Hw] & _) & _).
  exists w. do 4 (split; [assumption|]). split; [exact Hperm|]. split; [rewrite Hw, menu_text_lines, Si, I1; reflexivity|].
  intros i. rewrite (held_spec C U tz _ (gi_reach _ _ _ _ _ (running_inv _ _ _ _ _ _ _ R'))), Si, I1. cbn [st_items items_list].
  split; [apply Permutation_in; exact Hperm|apply Permutation_in; symmetry; exact Hperm].
Qed.
Print Assumptions C68_menu_of_stored_vault.

Example C68_stored_example :
  let g := fst (demo_gui (vault_world (b "/v") []) [Typed (b "freddy")]) in
  demo_running g /\ current g = VPrompt /\ fits g /\ trimmed (typed g) (b "freddy") /\
  vault_at toy_crypto latin1 utc (w_disk (a_world (g_app g))) (g_vault g) (b "freddy") demo_keys demo_items /\
  exists s0, validate (w_disk (a_world (g_app g))) (g_vault g) init = Ok (s0, None) /\ st_profile s0 = st_profile (session g).
Proof.
  split; [apply demo_runs; vm_compute; reflexivity|]. split; [reflexivity|]. split; [vm_compute; split; discriminate|]. split; [apply trimmed_iff; vm_compute; reflexivity|]. split.
  - replace (w_disk (a_world (g_app (fst (demo_gui (vault_world (b "/v") []) [Typed (b "freddy")]))))) with (w_disk (vault_world (b "/v") [b "freddy"])) by (vm_compute; reflexivity).
    change (g_vault (fst (demo_gui (vault_world (b "/v") []) [Typed (b "freddy")]))) with (b "/v").
    apply demo_at.
  - eexists. split; vm_compute; reflexivity.
Qed.

(** ** C69 *)

(** The rows are those of the items that belong to the entry, in order. *)
Definition rows_for (s : state) (e : entry) (rows : list simple_item) : Prop :=
  (forall row, In row rows <-> exists i, held s i /\ belongs e i = true /\ row = row_of i) /\
  NoDup (map s_uid rows) /\ StronglySorted row_before rows.

Lemma cat_eqb_eq x y : cat_eqb x y = true <-> x = y.
Proof.
  unfold cat_eqb. rewrite andb_true_iff, !bytes_eqb_eq. destruct x, y. cbn. split; [intros [-> ->]; reflexivity|]. intros H. split; congruence.
Qed.

Lemma belongs_answers U e i : belongs e i = true <-> answers U (entry_category e) [] (entry_trashed e) i.
Proof.
  rewrite belongs_eq, andb_true_iff, Bool.eqb_true_iff. unfold answers.
  assert (H : cat_matches (entry_category e) i = true <-> (forall c, entry_category e = Some c -> it_cat i = c)).
  { unfold cat_matches. destruct (entry_category e) as [c|]; [|split; [discriminate|reflexivity]].
    rewrite cat_eqb_eq. split; [congruence|]. intros H. now apply H. }
  rewrite H. split; [|tauto]. intros [H1 H2]. split; [exact H1|]. split; [exact H2|]. exists [], (to_lower U (it_title i)). reflexivity.
Qed.

Lemma rows_for_entry C U tz O s e : reachable C U tz s -> oracles_ok O -> rows_for s e (get_items U O (entry_category e) [] (entry_trashed e) s).
Proof.
  intros Hr HO. destruct (C24_listing_exact C U tz O s (entry_category e) [] (entry_trashed e) HO Hr) as [H1 H2].
  split; [|split; [exact H2|now apply C25_listing_sorted]]. intros row. rewrite H1. split; intros (i & Hh & Ha & He); exists i; split; auto; split; auto; now apply (belongs_answers U).
Qed.

(** Where the entries are. *)
Lemma menu_shape s : exists l,
  menu s = (if Nat.eqb (count_items None false s) 0 then [] else All :: map Of l) ++ (if Nat.eqb (count_items None true s) 0 then [] else [Trash]).
Proof. eexists. apply menu_eq. Qed.

Lemma no_trash_before (x : bool) l : ~ In Trash (if x then [] else All :: map Of l).
Proof. destruct x; [intros []|]. intros [X|X]; [discriminate X|]. apply in_map_iff in X. destruct X as (c & X & _). discriminate X. Qed.

Lemma trash_last s : count_items None true s <> 0 -> exists l, menu s = l ++ [Trash] /\ ~ In Trash l.
Proof.
  destruct (menu_shape s) as [l ->]. generalize (count_items None true s), (Nat.eqb (count_items None false s) 0). intros n x H.
  destruct n as [|n]; [congruence|]. eexists. split; [reflexivity|]. apply no_trash_before.
Qed.

Lemma no_trash s : count_items None true s = 0 -> ~ In Trash (menu s).
Proof.
  destruct (menu_shape s) as [l ->]. generalize (count_items None true s), (Nat.eqb (count_items None false s) 0). intros n x ->.
  cbn [Nat.eqb]. rewrite app_nil_r. apply no_trash_before.
Qed.

Lemma all_first s e l : menu s = e :: l -> l <> [] -> e = All.
Proof.
  destruct (menu_shape s) as [l' ->]. generalize (Nat.eqb (count_items None true s) 0), (Nat.eqb (count_items None false s) 0). intros y x.
  destruct x; cbn [Datatypes.app]; [|congruence]. destruct y; [discriminate|]. intros H. assert (l = []) by congruence. contradiction.
Qed.

Lemma rows_of_entry U O s idx e :
  nth_error (menu s) (Z.to_nat idx) = Some e -> (0 <= idx)%Z ->
  count_items None true s <> 0 \/ (idx + 1 < Z.of_nat (length (menu s)))%Z ->
  rows_of U O (map entry_category (menu s)) idx s = get_items U O (entry_category e) [] (entry_trashed e) s.
Proof.
  intros Hn Hi Hg. unfold rows_of. rewrite map_length.
  assert (Hlt : Z.to_nat idx < length (menu s)) by (apply nth_error_Some; congruence).
  assert (Hlast : Z.to_nat idx = length (menu s) - 1 -> e = Trash).
  { intros Hl. destruct Hg as [Ht|Hg]; [|lia]. destruct (trash_last s Ht) as (l & El & _). rewrite El in Hn, Hl.
    rewrite app_length in Hl. cbn [length] in Hl. replace (Z.to_nat idx) with (length l) in Hn by lia.
    rewrite nth_error_app2 in Hn by lia. rewrite Nat.sub_diag in Hn. cbn in Hn. congruence. }
  assert (Hmid : Z.to_nat idx <> length (menu s) - 1 -> e <> Trash).
  { intros Hl ->. destruct (Nat.eq_dec (count_items None true s) 0) as [Ht|Ht].
    - apply (no_trash s Ht). eapply nth_error_In; eauto.
    - destruct (trash_last s Ht) as (l & El & Hno). rewrite El, app_length in Hl, Hlt. cbn [length] in *.
      rewrite El, nth_error_app1 in Hn by lia. apply Hno. eapply nth_error_In; eauto. }
  destruct (Nat.eqb (length (menu s)) 1) eqn:E1; [apply Nat.eqb_eq in E1; rewrite Hlast by lia; reflexivity|]. apply Nat.eqb_neq in E1.
  destruct (idx =? Z.of_nat (length (menu s)) - 1)%Z eqn:E2; [rewrite Hlast by lia; reflexivity|].
  assert (Ht : entry_trashed e = false) by (specialize (Hmid ltac:(lia)); now destruct e).
  rewrite Ht. destruct (idx =? 0)%Z eqn:E3.
  - assert (idx = 0)%Z as -> by lia. destruct (menu s) as [|x l] eqn:Em; [discriminate|]. cbn in Hn.
    assert (x = All) as -> by (apply (all_first s x l Em); destruct l; [cbn in E1; congruence|discriminate]).
    assert (e = All) as -> by congruence. reflexivity.
  - rewrite (nth_error_nth (map entry_category (menu s)) (Z.to_nat idx) (x := entry_category e)); [reflexivity|].
    rewrite nth_error_map, Hn. reflexivity.
Qed.

Lemma trashed_count C U tz s : reachable C U tz s -> (exists i, held s i /\ it_trashed i = true) <-> count_items None true s <> 0.
Proof.
  intros Hr. change (count_items None true s) with (entry_count s Trash). rewrite count_belongs. split.
  - intros (i & Hh & Ht). apply (held_spec C U tz s Hr) in Hh. intros X. assert (Hin : In i (filter (belongs Trash) (items_list (st_items s)))) by (apply filter_In; auto).
    destruct (filter (belongs Trash) (items_list (st_items s))); [destruct Hin|discriminate].
  - intros H. destruct (filter (belongs Trash) (items_list (st_items s))) as [|i l] eqn:E; [cbn in H; congruence|].
    exists i. assert (Hin : In i (filter (belongs Trash) (items_list (st_items s)))) by (rewrite E; now left).
    apply filter_In in Hin. split; [apply (held_spec C U tz s Hr)|]; tauto.
Qed.

Lemma selected_menu g e : selected_entry g = Some e -> is_unlocked (session g) = true ->
  nth_error (menu (session g)) (Z.to_nat (g_menu_idx g)) = Some e /\ (0 <= g_menu_idx g)%Z /\ entries g = menu (session g).
Proof.
  unfold selected_entry, entries. intros H Hu. rewrite Hu in *. rewrite <- menu_entries in *. destruct (g_menu_idx g <? 0)%Z eqn:E; [discriminate|].
  split; [exact H|]. split; [lia|reflexivity].
Qed.

(** Partial: when something is in the trash or the entry is not the last one.  While the list of an entry
    is open, with or without the details of an item, it is the list of its items. *)
Theorem C69_entry_shows_its_items_partial : forall C U tz Y dir center g e,
  running C U tz Y dir center g -> current g = VItems \/ current g = VDetails -> selected_entry g = Some e ->
  (exists i, held (session g) i /\ it_trashed i = true) \/ (g_menu_idx g + 1 < Z.of_nat (length (entries g)))%Z ->
  exists rows, rows_for (session g) e rows /\ g_rows g = rows /\ shown g VItems = Some (concat (map row_line rows)).
Proof.
  intros C U tz Y dir center g e R Hc He Hg. apply running_inv in R. assert (M := gi_mode _ _ _ _ _ R).
  assert (Hr := gi_reach _ _ _ _ _ R). rewrite (trashed_count C U tz _ Hr) in Hg.
  assert (H : open_menu center g /\ exists mk, open_list U tz mk g) by (unfold mode in M; destruct Hc as [Hc|Hc]; rewrite Hc in M; split; try tauto; eexists; apply M).
  destruct H as [(U1 & U2 & _) (mk & L1 & (O & HO & L2) & L3 & L4 & _)].
  destruct (selected_menu g e He U1) as (E1 & E2 & E3). rewrite E3 in Hg.
  exists (g_rows g). split; [|split; [reflexivity|exact L4]].
  rewrite L2, U2, (rows_of_entry U O _ _ e E1 E2 Hg). now apply (rows_for_entry C U tz).
Qed.
Print Assumptions C69_entry_shows_its_items_partial.

(** ENTER or the right arrow on an entry opens its list, with the first item selected. *)
Theorem C69_entry_opens : forall C U tz Y dir center g e O k,
  running C U tz Y dir center g -> current g = VMenu -> selected_entry g = Some e -> fits g -> oracles_ok O ->
  k = KEnter \/ k = KRight ->
  exists g', gui_step C U tz O dir center (Press k) g = (g', Ok true) /\ running C U tz Y dir center g' /\
    current g' = VItems /\ selected_entry g' = Some e /\ session g' = session g /\
    (g_rows g' <> [] -> g_row_idx g' = 0%Z).
Proof.
  intros C U tz Y dir center g e O k R Hc He Hfit HO Hk. assert (G := running_inv _ _ _ _ _ _ _ R).
  assert (Hi : g_menu_idx g <> (-1)%Z) by (unfold selected_entry in He; destruct (g_menu_idx g <? 0)%Z eqn:E; [discriminate|lia]).
  destruct (open_entry_inv C U tz dir center O g HO G Hc Hi Hfit) as (g1 & E1 & G1 & C1 & A1 & I1 & K1 & R1 & X1 & V1 & W1 & H1 & _).
  assert (Hh : handle C U tz O dir center (Press k) g = (g1, Ok true)).
  { unfold handle, get, bind. change (ui_cur (g_ui g)) with (current g). rewrite Hc. destruct Hk as [-> | ->]; exact E1. }
  destruct (step_handle C U tz dir center O (Press k) g g1 G HO ltac:(destruct Hk as [-> | ->]; discriminate) Hh) as [(g' & Es' & Rs)|(g' & _ & Hn)].
  2:{ exfalso. apply Hn. unfold roomy, fits in *. now rewrite W1, H1. }
  assert (Ss : session g' = session g) by (unfold session; now rewrite (rs_app _ _ Rs), A1).
  exists g'. split; [exact Es'|]. split; [exact (running_step _ _ _ _ _ _ _ _ _ _ R HO Es')|]. split; [rewrite (rs_cur _ _ Rs); exact C1|].
  split; [unfold selected_entry, entries in *; rewrite Ss, (rs_midx _ _ Rs), I1; exact He|]. split; [exact Ss|].
  rewrite (rs_rows _ _ Rs), (rs_ridx _ _ Rs), X1. destruct (g_rows g1); [congruence|reflexivity].
Qed.
Print Assumptions C69_entry_opens.

Example C69_example :
  let g := fst (demo_gui (vault_world (b "/v") []) (enter_freddy ++ [Press KDown])) in
  let g' := fst (demo_gui (vault_world (b "/v") []) (enter_freddy ++ [Press KDown; Press KEnter])) in
  demo_running g /\ current g = VMenu /\ selected_entry g = Some (Of (Cat (b "001") (b "Login"))) /\ fits g /\
  demo_running g' /\ (exists i, held (session g') i /\ it_trashed i = true) /\ shown g' VItems = Some (b "Mail" ++ newline).
Proof.
  split; [apply demo_runs; vm_compute; reflexivity|]. split; [vm_compute; reflexivity|]. split; [vm_compute; reflexivity|].
  split; [vm_compute; split; discriminate|]. split; [apply demo_runs; vm_compute; reflexivity|]. split; [|vm_compute; reflexivity].
  exists (nth 1 demo_items (MkItem (Cat [] []) 0 [] [] false [] [] [] 0)). split; vm_compute; reflexivity.
Qed.

(** Refuted: with nothing in the trash the last category shows nothing although it counts an item. *)
Theorem C69_entry_shows_its_items_refuted : exists C U tz Y dir center g e i,
  running C U tz Y dir center g /\ current g = VItems /\ selected_entry g = Some e /\
  held (session g) i /\ belongs e i = true /\ shown g VItems = Some [] /\ g_rows g = [].
Proof.
  exists toy_crypto, latin1, utc, toy_yaml, (b "/c"), (fun t _ => t),
    (fst (demo_gui one_item_world (enter_freddy ++ [Press KDown; Press KEnter]))), (Of (Cat (b "001") (b "Login"))), (hd (nth 1 demo_items (MkItem (Cat [] []) 0 [] [] false [] [] [] 0)) demo_items).
  set (p := demo_gui one_item_world (enter_freddy ++ [Press KDown; Press KEnter])).
  assert (E : (snd p, current (fst p), selected_entry (fst p), get_item (b "AA") false (session (fst p)), (shown (fst p) VItems, g_rows (fst p))) =
    (Ok true, VItems, Some (Of (Cat (b "001") (b "Login"))), Some (hd (nth 1 demo_items (MkItem (Cat [] []) 0 [] [] false [] [] [] 0)) demo_items), (Some [], []))) by (vm_compute; reflexivity).
  apply pair_eq in E. destruct E as [E E5]. apply pair_eq in E5. destruct E5 as [E5 E6]. apply pair_eq in E. destruct E as [E E4].
  apply pair_eq in E. destruct E as [E E3]. apply pair_eq in E. destruct E as [E1 E2].
  split; [exact (demo_runs _ _ E1)|]. split; [exact E2|]. split; [exact E3|]. split; [exact E4|]. split; [reflexivity|]. split; [exact E5|exact E6].
Qed.
Print Assumptions C69_entry_shows_its_items_refuted.

(** ** One key *)

Lemma key_step C U tz Y dir center O i g g1 :
  running C U tz Y dir center g -> oracles_ok O -> i <> Press KQuit -> fits g1 -> handle C U tz O dir center i g = (g1, Ok true) ->
  exists g', gui_step C U tz O dir center i g = (g', Ok true) /\ running C U tz Y dir center g' /\ resized g1 g'.
Proof.
  intros R HO Hq Hf Hh. assert (G := running_inv _ _ _ _ _ _ _ R).
  destruct (step_handle C U tz dir center O i g g1 G HO Hq Hh) as [(g' & E & Rs)|(g' & _ & Hn)]; [|exfalso; exact (Hn Hf)].
  exists g'. split; [exact E|]. split; [exact (running_step _ _ _ _ _ _ _ _ _ _ R HO E)|exact Rs].
Qed.

Lemma on_view_is C U tz O dir center k g n r : current g = n -> on_key C U tz O center n k g = r -> handle C U tz O dir center (Press k) g = r.
Proof. intros <- H. exact H. Qed.

(** ** C70 *)

Lemma empty_list_no_trash C U tz center g : ginv C U tz center g -> current g = VItems -> g_rows g = [] ->
  (forall i, held (session g) i -> it_trashed i = false) /\ (g_menu_idx g + 1 = Z.of_nat (length (entries g)))%Z.
Proof.
  intros G Hc Hn. assert (M := gi_mode _ _ _ _ _ G). assert (Hr := gi_reach _ _ _ _ _ G). unfold mode in M. rewrite Hc in M.
  destruct M as ((U1 & U2 & _ & U4) & (L1 & (O & HO & L2) & _) & _). destruct U4 as [[_ X]|U4]; [contradiction|].
  destruct (nth_error (menu (session g)) (Z.to_nat (g_menu_idx g))) as [e|] eqn:E; [|apply nth_error_None in E; lia].
  assert (En : entries g = menu (session g)) by (unfold entries; now rewrite U1, menu_entries).
  assert (Hrow : count_items None true (session g) <> 0 \/ (g_menu_idx g + 1 < Z.of_nat (length (menu (session g))))%Z -> False).
  { intros Hg. assert (R := rows_of_entry U O (session g) _ e E ltac:(lia) Hg). rewrite U2, R in L2.
    destruct (rows_for_entry C U tz O _ e Hr HO) as [F _].
    assert (Hin : In e (menu (session g))) by (eapply nth_error_In; eauto). rewrite menu_entries in Hin. apply filter_In in Hin. destruct Hin as [_ Hex].
    apply existsb_exists in Hex. destruct Hex as (i & Hi & Hb). apply (held_spec C U tz _ Hr) in Hi.
    assert (X : In (row_of i) []); [|destruct X]. rewrite <- Hn, L2. apply F. exists i. auto. }
  split; [|rewrite En; lia].
  intros i Hi. destruct (it_trashed i) eqn:Et; [|reflexivity]. exfalso. apply Hrow. left. apply (trashed_count C U tz _ Hr). eauto.
Qed.

(** Partial: the only ways to crash are TAB on the empty list, which takes a vault without anything in the
    trash whose last entry is open; ENTER after a password when the files of the vault are malformed; and an
    answer of the server that the update check cannot take. *)
Lemma key_crashes : forall C U tz Y dir center g g' O i,
  running C U tz Y dir center g -> oracles_ok O -> gui_step C U tz O dir center i g = (g', Panic) ->
  (i = Press KTab /\ current g = VItems /\ shown g VItems = Some [] /\
     (forall i, held (session g) i -> it_trashed i = false) /\ (g_menu_idx g + 1 = Z.of_nat (length (entries g)))%Z) \/
  (i = Press KEnter /\ current g = VPrompt /\
     unlock C U tz O (w_disk (a_world (g_app g))) (g_vault g) (trim_space (typed g)) (session g) = Panic) \/
  (i = Checked /\ snd (facade_check (a_conf (g_app g)) true dir (a_world (g_app g))) = Panic).
Proof.
  intros C U tz Y dir center g g' O i R HO H. assert (G := running_inv _ _ _ _ _ _ _ R).
  assert (S := step_run C U tz dir center O i g HO G). rewrite H in S. destruct S as [(-> & Hc & Hn)|[(-> & Hc & Hu)|(-> & _ & Hu)]].
  - left. split; [reflexivity|]. split; [exact Hc|]. split; [|exact (empty_list_no_trash C U tz center g G Hc Hn)].
    assert (M := gi_mode _ _ _ _ _ G). unfold mode in M. rewrite Hc in M. destruct M as (_ & (_ & _ & _ & L4 & _) & _). rewrite L4, Hn. reflexivity.
  - right. left. auto.
  - right. right. split; [reflexivity|]. unfold update_check, bind, the_conf, on_world in Hu.
    destruct (facade_check (a_conf (g_app g)) true dir (a_world (g_app g))) as [w' r]. exact Hu.
Qed.

(** Refuted. *)
Theorem C70_no_key_crashes_refuted : exists C U tz Y dir center g,
  running C U tz Y dir center g /\ fits g /\
  forall O, snd (gui_step C U tz O dir center (Press KTab) g) = Panic.
Proof.
  exists toy_crypto, latin1, utc, toy_yaml, (b "/c"), (fun t _ => t), (fst (demo_gui one_item_world (enter_freddy ++ [Press KDown; Press KEnter]))).
  set (p := demo_gui one_item_world (enter_freddy ++ [Press KDown; Press KEnter])).
  assert (E : (snd p, current (fst p), (g_rows (fst p), g_row_idx (fst p)), (ui_w (g_ui (fst p)), ui_h (g_ui (fst p)))) =
    (Ok true, VItems, ([], (-1)%Z), (80%Z, 24%Z))) by (vm_compute; reflexivity).
  apply pair_eq in E. destruct E as [E E4]. apply pair_eq in E4. destruct E4 as [E4 E5]. apply pair_eq in E. destruct E as [E E3]. apply pair_eq in E3. destruct E3 as [E3 E3'].
  apply pair_eq in E. destruct E as [E1 E2]. split; [exact (demo_runs _ _ E1)|]. split; [unfold fits; rewrite E4, E5; split; discriminate|].
  intros O. revert E2 E3 E3'. clear. generalize (fst p). intros g E2 E3 E3'. unfold gui_step, check. unfold bind at 1. unfold bind at 1. unfold handle, get. unfold bind at 1. change (ui_cur (g_ui g)) with (current g). rewrite E2. cbn [on_key].
  unfold reveal, pick_item, bind, get. rewrite E3, E3'. reflexivity.
Qed.
Print Assumptions C70_no_key_crashes_refuted.

(** ** C71 *)

(** One line down or up in a list of [n] lines. *)
Definition moved (k : key) (n : nat) (i : Z) : Z :=
  match k with
  | KDown => if (i + 1 <? Z.of_nat n)%Z then i + 1 else i
  | KUp => if (0 <? i)%Z then i - 1 else i
  | _ => i
  end%Z.

(** The selection is a line of the list, and -1 if it has none. *)
Definition within (n : nat) (i : Z) : Prop := if Nat.eqb n 0 then i = (-1)%Z else (0 <= i < Z.of_nat n)%Z.

Lemma idx_within n i : idx_ok n i -> within n i.
Proof. unfold idx_ok, within. destruct n; cbn [Nat.eqb]; lia. Qed.

Theorem C71_selection_in_range : forall C U tz Y dir center g,
  running C U tz Y dir center g ->
  within (length (entries g)) (g_menu_idx g) /\
  (current g = VItems \/ current g = VDetails -> within (length (g_rows g)) (g_row_idx g)).
Proof.
  intros C U tz Y dir center g R. apply running_inv in R. assert (M := gi_mode _ _ _ _ _ R).
  assert (Ho : open_menu center g -> within (length (entries g)) (g_menu_idx g)).
  { intros (X1 & _ & _ & X4). unfold entries. rewrite X1, <- menu_entries. now apply idx_within. }
  assert (Hcl : closed_menu g -> within (length (entries g)) (g_menu_idx g)).
  { intros (X1 & _ & X3 & _). unfold entries. rewrite X1. exact X3. }
  unfold mode in M. destruct (current g); try contradiction; (split; [tauto|]); intros [X|X]; try discriminate X.
  - destruct M as (_ & (_ & _ & L & _) & _). now apply idx_within.
  - destruct M as (_ & (_ & _ & L & _) & _). now apply idx_within.
Qed.
Print Assumptions C71_selection_in_range.

(** In the menu: a key moves the selection by one line; at the ends nothing changes. *)
Theorem C71_menu_moves : forall C U tz Y dir center g O k,
  running C U tz Y dir center g -> oracles_ok O -> current g = VMenu -> fits g -> k = KDown \/ k = KUp ->
  exists g', gui_step C U tz O dir center (Press k) g = (g', Ok true) /\ running C U tz Y dir center g' /\
    g_menu_idx g' = moved k (length (entries g)) (g_menu_idx g) /\ current g' = VMenu /\ session g' = session g /\
    (forall n, shown g' n = shown g n) /\ (g_menu_idx g' = g_menu_idx g -> same_screen g g').
Proof.
  intros C U tz Y dir center g O k R HO Hc Hf Hk. assert (G := running_inv _ _ _ _ _ _ _ R).
  destruct (C71_selection_in_range _ _ _ _ _ _ _ R) as [Hw _].
  assert (M := gi_mode _ _ _ _ _ G). unfold mode in M. rewrite Hc in M. destruct M as ((U1 & _) & _).
  assert (En : entries g = menu (session g)) by (unfold entries; now rewrite U1, menu_entries). rewrite En in *.
  assert (H : exists g1 f, handle C U tz O dir center (Press k) g = (g1, Ok true) /\ menu_goal C U tz center (moved k (length (menu (session g))) (g_menu_idx g)) f g g1).
  { destruct Hk as [-> | ->].
    - destruct (menu_down_run C U tz dir center g G Hc) as (g1 & E & Q). exists g1, line_down. split; [eapply on_view_is; [exact Hc|exact E]|].
      replace (moved KDown _ _) with (Z.min (g_menu_idx g + 1) (Z.of_nat (length (menu (session g))) - 1)); [exact Q|].
      unfold moved, within in *. destruct (g_menu_idx g + 1 <? Z.of_nat (length (menu (session g))))%Z eqn:X; destruct (length (menu (session g))); cbn [Nat.eqb] in Hw; lia.
    - destruct (menu_up_run C U tz dir center g G Hc) as (g1 & E & Q). exists g1, line_up. split; [eapply on_view_is; [exact Hc|exact E]|exact Q]. }
  destruct H as (g1 & f & E & (G1 & I1 & (_ & _ & _ & W1 & H1 & _) & S1 & C1 & _ & Sh & Same & _)).
  destruct (key_step C U tz Y dir center O (Press k) g g1 R HO) as (g' & E' & R' & Rs); [destruct Hk as [-> | ->]; discriminate|unfold fits in *; now rewrite W1, H1|exact E|].
  exists g'. split; [exact E'|]. split; [exact R'|]. split; [rewrite (rs_midx _ _ Rs); exact I1|]. split; [rewrite (rs_cur _ _ Rs); exact C1|].
  split; [rewrite (resized_session C U tz dir center _ _ Rs); exact S1|].
  split; [intros n; rewrite (resized_shown C U tz dir center _ _ n Rs); apply Sh|].
  rewrite (rs_midx _ _ Rs). intros X. rewrite (Same X) in Rs. now apply resized_same.
Qed.
Print Assumptions C71_menu_moves.

(** The row that is selected and its item. *)
Definition chosen_row (g : gui) : option simple_item :=
  if (g_row_idx g <? 0)%Z then None else nth_error (g_rows g) (Z.to_nat (g_row_idx g)).
Definition chosen_item (g : gui) : option item :=
  match chosen_row g with Some r => get_item (s_uid r) (s_trashed r) (session g) | None => None end.

(** In the list: the same, and the text beside the list is that of the selected item without its secrets. *)
Theorem C71_list_moves : forall C U tz Y dir center g O k,
  running C U tz Y dir center g -> oracles_ok O -> current g = VItems -> fits g -> k = KDown \/ k = KUp ->
  exists g', gui_step C U tz O dir center (Press k) g = (g', Ok true) /\ running C U tz Y dir center g' /\
    g_row_idx g' = moved k (length (g_rows g)) (g_row_idx g) /\ g_rows g' = g_rows g /\ current g' = VItems /\ session g' = session g /\
    g_menu_idx g' = g_menu_idx g /\ shown g' VItems = shown g VItems /\
    (forall i, chosen_item g' = Some i -> shown g' VDetails = Some (full_text tz (masked i))) /\
    (g_row_idx g' = g_row_idx g -> same_screen g g').
Proof.
  intros C U tz Y dir center g O k R HO Hc Hf Hk. assert (G := running_inv _ _ _ _ _ _ _ R).
  destruct (C71_selection_in_range _ _ _ _ _ _ _ R) as [_ Hw]. specialize (Hw (or_introl Hc)).
  assert (H : exists g1, handle C U tz O dir center (Press k) g = (g1, Ok true) /\ row_goal C U tz center (moved k (length (g_rows g)) (g_row_idx g)) g g1).
  { destruct Hk as [-> | ->].
    - destruct (row_down_run C U tz dir center g G Hc) as (g1 & E & Q & _). exists g1. split; [eapply on_view_is; [exact Hc|exact E]|].
      replace (moved KDown _ _) with (Z.min (g_row_idx g + 1) (Z.of_nat (length (g_rows g)) - 1)); [exact Q|].
      unfold moved, within in *. destruct (g_row_idx g + 1 <? Z.of_nat (length (g_rows g)))%Z eqn:X; destruct (length (g_rows g)); cbn [Nat.eqb] in Hw; lia.
    - destruct (row_up_run C U tz dir center g G Hc) as (g1 & E & Q & _). exists g1. split; [eapply on_view_is; [exact Hc|exact E]|exact Q]. }
  destruct H as (g1 & E & (G1 & B & I1 & Same & C1)).
  destruct (key_step C U tz Y dir center O (Press k) g g1 R HO) as (g' & E' & R' & Rs); [destruct Hk as [-> | ->]; discriminate|unfold fits in *; now rewrite (bl_w _ _ B), (bl_h _ _ B)|exact E|].
  assert (S' : session g' = session g) by (rewrite (resized_session C U tz dir center _ _ Rs); unfold session; now rewrite (bl_app _ _ B)).
  assert (C' : current g' = VItems) by (rewrite (rs_cur _ _ Rs); exact C1).
  assert (W' : g_rows g' = g_rows g) by (rewrite (rs_rows _ _ Rs); exact (bl_rows _ _ B)).
  assert (M := gi_mode _ _ _ _ _ (running_inv _ _ _ _ _ _ _ R')). unfold mode in M. rewrite C' in M. destruct M as (_ & (_ & _ & _ & L4 & L5) & _).
  assert (M := gi_mode _ _ _ _ _ G). unfold mode in M. rewrite Hc in M. destruct M as (_ & (_ & _ & _ & L4' & _) & _).
  exists g'. split; [exact E'|]. split; [exact R'|]. split; [rewrite (rs_ridx _ _ Rs); exact I1|]. split; [exact W'|]. split; [exact C'|]. split; [exact S'|].
  split; [rewrite (rs_midx _ _ Rs); exact (bl_midx _ _ B)|]. split; [rewrite L4, L4', W'; reflexivity|]. split.
  - intros i Hi. change (chosen_item g') with (selected_item g') in Hi. rewrite L5, Hi. unfold item_text, full_text. now rewrite masked_details.
  - rewrite (rs_ridx _ _ Rs). intros X. rewrite (Same X) in Rs. now apply resized_same.
Qed.
Print Assumptions C71_list_moves.

Example C71_example :
  let g := fst (demo_gui (vault_world (b "/v") []) (enter_freddy ++ [Press KEnter; Press KDown])) in
  demo_running g /\ current g = VItems /\ fits g /\ map s_title (g_rows g) = [b "Mail"; b "Visa"] /\ g_row_idx g = 1%Z /\
  moved KDown 2 1 = 1%Z /\ moved KUp 2 1 = 0%Z /\ option_map it_title (chosen_item g) = Some (b "Visa").
Proof.
  set (p := demo_gui (vault_world (b "/v") []) (enter_freddy ++ [Press KEnter; Press KDown])).
  assert (E : (snd p, current (fst p), (ui_w (g_ui (fst p)), ui_h (g_ui (fst p))), (map s_title (g_rows (fst p)), g_row_idx (fst p), option_map it_title (chosen_item (fst p)))) =
    (Ok true, VItems, (80%Z, 24%Z), ([b "Mail"; b "Visa"], 1%Z, Some (b "Visa")))) by (vm_compute; reflexivity).
  apply pair_eq in E. destruct E as [E E4]. apply pair_eq in E. destruct E as [E E3]. apply pair_eq in E. destruct E as [E1 E2].
  apply pair_eq in E3. destruct E3 as [E3 E3']. apply pair_eq in E4. destruct E4 as [E4 E6]. apply pair_eq in E4. destruct E4 as [E4 E5].
  split; [exact (demo_runs _ _ E1)|]. split; [exact E2|]. split; [unfold fits; cbv zeta; fold p; rewrite E3, E3'; split; discriminate|].
  split; [exact E4|]. split; [exact E5|]. split; [reflexivity|]. split; [reflexivity|exact E6].
Qed.
