(** The entries of the menu can be read (C100). *)
From Verif Require Import Base Utf8 GoStrings GoStringsProof Json Civil Crypto Path Fs Domain DomainProof Repos Session SessionProof
  World WorldProof Config Updater Cli CliProof CliEvents Spec_Vault Spec_Writer Spec_Domain VaultProof Toy ToyYaml Gui Spec_Gui GuiProof GuiRun GuiCursor
  Center CenterProof.
From Verif Require Import Properties_Session Properties_Cli Properties_Show Properties_End Properties_Gui Properties_Gui4.

Local Notation newline := World.newline.

(** ** Specification *)

(** What the screen shows of line number [i] of a view: nothing when it is above or below, and only the columns
    that the view has. *)
Definition seen (v : view) (i : nat) : option bytes :=
  if ((v_oy v <=? Z.of_nat i) && (Z.of_nat i <? v_oy v + v_h v))%Z
  then option_map (fun line => firstn (Z.to_nat (v_w v)) (skipn (Z.to_nat (v_ox v)) line)) (nth_error (text_lines (v_text v)) i)
  else None.

(** A view shows a text on a line of its own, with blanks around it. *)
Definition readable (g : gui) (n : vname) (t : bytes) : Prop :=
  exists v i before after, view_of g n = Some v /\ seen v i = Some (repeat " "%char before ++ t ++ repeat " "%char after).

(** ** Centring *)

Lemma firstn_repeat {A} (x : A) n k : firstn k (repeat x n) = repeat x (Nat.min k n).
Proof. revert k. induction n as [|n IH]; intros [|k]; cbn; try reflexivity. now rewrite IH. Qed.

(** A text without blanks around it is moved, and nothing of it is lost. *)
Lemma center_exact (t : bytes) w : trim_blanks t = t ->
  align_center t w = if (Z.of_nat (length t) <? w)%Z
    then repeat " "%char (Z.to_nat (w - Z.of_nat (length t) - (w - Z.of_nat (length t)) / 2)) ++ t ++ repeat " "%char (Z.to_nat ((w - Z.of_nat (length t)) / 2))
    else t.
Proof. intros H. unfold align_center. now rewrite H. Qed.

Lemma center_line t n : one_line t -> one_line (align_center t n).
Proof.
  intros H.
  assert (L : forall t, one_line t -> one_line (trim_left_blanks t)).
  { clear. intros t H X. apply H. clear H. induction t as [|c t IH]; cbn [trim_left_blanks] in X; [exact X|].
    destruct (Ascii.eqb c " "); [right; auto|exact X]. }
  assert (R : forall t, one_line t -> one_line (rev t)) by (intros x Hx X; apply Hx, in_rev, X).
  assert (T : one_line (trim_blanks t)) by (unfold trim_blanks; auto).
  assert (B : forall k, one_line (blanks k)) by (intros k X; apply repeat_spec in X; discriminate X).
  unfold align_center. destruct (_ <? n)%Z; [|exact T]. apply one_line_app; [apply B|]. apply one_line_app; [exact T|apply B].
Qed.

Lemma trim_marked t : (exists c r, t = c :: r /\ c <> " "%char) -> (exists c r, t = r ++ [c] /\ c <> " "%char) -> trim_blanks t = t.
Proof.
  assert (L : forall c r, c <> " "%char -> trim_left_blanks (c :: r) = c :: r).
  { intros c r H. cbn [trim_left_blanks]. destruct (Ascii.eqb_spec c " "); [contradiction|reflexivity]. }
  intros (c & r & E & H) (c' & r' & E' & H'). unfold trim_blanks. rewrite E, (L c r H), <- E, E', rev_app_distr.
  cbn [rev Datatypes.app]. rewrite (L c' _ H'). cbn [rev]. now rewrite rev_involutive.
Qed.

Lemma label_trim items e : In e all_entries -> trim_blanks (entry_label items e) = entry_label items e.
Proof.
  intros He. apply trim_marked.
  - assert (F : forallb (fun e => match entry_name e with c :: _ => negb (Ascii.eqb c " ") | [] => false end) all_entries = true) by (vm_compute; reflexivity).
    rewrite forallb_forall in F. specialize (F e He). cbv beta in F. unfold entry_label. destruct (entry_name e) as [|c r]; [discriminate|].
    exists c. eexists. split; [reflexivity|]. intros ->. discriminate F.
  - exists ")"%char. unfold entry_label. eexists. split; [|discriminate]. change (b ")") with [")"%char]. now rewrite !app_assoc.
Qed.

(** A label of at most three columns less than the terminal survives the frame. *)
Lemma center_seen t w : trim_blanks t = t -> (Z.of_nat (length t) + 3 <= w)%Z ->
  exists before after, firstn (Z.to_nat (w - 2)) (align_center t (w - 1)) = repeat " "%char before ++ t ++ repeat " "%char after.
Proof.
  intros Ht Hl. rewrite center_exact by exact Ht. destruct (Z.ltb_spec (Z.of_nat (length t)) (w - 1)) as [_|H]; [|lia].
  set (n := Z.of_nat (length t)) in *. set (r := ((w - 1 - n) / 2)%Z). assert (Hr : (1 <= r /\ 2 * r <= w - 1 - n)%Z) by (unfold r; Z.to_euclidean_division_equations; lia).
  eexists. eexists (_ - _ - _). rewrite firstn_app, firstn_all2 by (rewrite repeat_length; lia). f_equal. rewrite repeat_length.
  rewrite firstn_app, firstn_all2 by (unfold n in *; lia). f_equal. rewrite firstn_repeat. f_equal. rewrite Nat.min_l by (unfold n in *; lia). reflexivity.
Qed.

(** ** C100 *)

(** Every entry of the menu can be read, whole and on a line of its own, when its label leaves three columns of the
    terminal free and the terminal has 28 lines.  Partial: while the size of the terminal stays the same. *)
Theorem C100_entries_readable_partial : forall C U tz Y dir path w h es world g,
  (3 <= w)%Z -> (28 <= h)%Z ->
  Forall (fun x => oracles_ok (fst x) /\ forall w' h', snd x <> Resize w' h') es ->
  gui_process C U tz Y dir align_center path w h es world = (g, Ok true) -> is_unlocked (session g) = true ->
  exists items, (forall i, In i items <-> held (session g) i) /\ NoDup (map it_uid items) /\
    forall e, In e (entries_for items) -> (Z.of_nat (length (entry_label items e)) + 3 <= w)%Z ->
      readable g VMenu (entry_label items e).
Proof.
  intros C U tz Y dir path w h es world g Hw Hh Hes Hg Hu.
  set (center := fun t (_ : Z) => align_center t (w - 1)).
  rewrite (same_process C U tz dir align_center center w (fun t => eq_refl)) in Hg.
  2: { eapply Forall_impl; [|exact Hes]. now intros x [_ X]. }
  assert (R : running C U tz Y dir center g).
  { exists path, w, h, es, world. split; [|exact Hg]. eapply Forall_impl; [|exact Hes]. now intros x [X _]. }
  assert (Mm : menu_marks w h g).
  { apply (menu_running C U tz dir center w h Hw Hh Y path es world); [|exact Hg]. eapply Forall_impl; [|exact Hes].
    intros [O i] [X1 X2]. split; [exact X1|]. destruct i; cbn [snd]; try exact Logic.I. exact (X2 _ _ eq_refl). }
  assert (G := running_inv _ _ _ _ _ _ _ R). assert (M := gi_mode _ _ _ _ _ G). assert (Hr := gi_reach _ _ _ _ _ G).
  assert (H : exists w, shown g VMenu = Some (menu_text center w (session g))).
  { unfold mode, closed_menu, open_menu in M. destruct (current g); try contradiction; try tauto; destruct M as ((X & _) & _); congruence. }
  destruct H as [wd H]. rewrite menu_text_lines in H. set (items := items_list (st_items (session g))) in *. exists items.
  split; [intros i; symmetry; apply (held_spec C U tz (session g) Hr)|]. split; [apply (inv_uids _ (reachable_inv C U tz _ Hr))|].
  intros e He Hl. unfold shown in H. destruct (view_of g VMenu) as [v|] eqn:Ev; [|discriminate H]. cbn [option_map] in H. injection H as H.
  destruct Mm as (_ & _ & Mm). destruct (Mm v Ev) as (V1 & V2 & _ & V4 & _ & V6).
  assert (Ha : forall x, In x (entries_for items) -> In x all_entries) by (intros x Hx; apply filter_In in Hx; exact (proj1 Hx)).
  destruct (In_nth_error _ _ He) as [i Hi].
  destruct (center_seen (entry_label items e) w (label_trim items e (Ha e He)) Hl) as (x & y & S).
  exists v, i, x, y. split; [exact Ev|]. unfold seen. rewrite V1, V2, V4, V6, H.
  assert (Hlen : (i < 20)%nat).
  { assert (L : (length (menu (session g)) <= 20)%nat) by (eapply menu_length; first [exact dir|exact center|exact w|exact h|eassumption]). rewrite menu_entries in L. fold items in L.
    assert (i < length (entries_for items))%nat by (apply nth_error_Some; rewrite Hi; discriminate). lia. }
  replace ((0 <=? Z.of_nat i) && (Z.of_nat i <? 0 + (h - 8)))%Z with true by lia.
  unfold menu_lines. rewrite (entry_line_label center wd items (entries_for items)) with (e := e); [|intros z Hz; apply center_line, label_one_line, Ha, Hz|apply trash_last|exact Hi].
  cbn [option_map Z.to_nat]. rewrite skipn_O. exact (f_equal Some S).
Qed.
Print Assumptions C100_entries_readable_partial.

Definition centred_gui_in (w : world) (es : list input) : gui * res bool :=
  gui_process toy_crypto latin1 utc toy_yaml (b "/c") align_center [] 80 30 (map (fun i => (forwards, i)) es) w.
Lemma settled {A B} (p : A * B) x : snd p = x -> p = (fst p, x).
Proof. intros <-. now destruct p. Qed.
Lemma centred_is w es : snd (centred_gui_in w es) = Ok true ->
  gui_process toy_crypto latin1 utc toy_yaml (b "/c") align_center [] 80 30 (map (fun i => (forwards, i)) es) w = (fst (centred_gui_in w es), Ok true).
Proof. exact (settled (centred_gui_in w es) (Ok true)). Qed.
Local Notation centred_gui := (centred_gui_in (vault_world (b "/v") [])).
Definition first_seen (g : gui) : option bytes := match view_of g VMenu with Some v => seen v 0 | None => None end.

Example C100_example :
  Forall (fun x => oracles_ok (fst x) /\ forall w' h', snd x <> Resize w' h') (map (fun i => (forwards, i)) enter_freddy) /\
  snd (centred_gui enter_freddy) = Ok true /\ is_unlocked (session (fst (centred_gui enter_freddy))) = true /\
  first_seen (fst (centred_gui enter_freddy)) = Some (repeat " "%char 36 ++ b "All (2)" ++ repeat " "%char 35).
Proof.
  split; [|vm_compute; repeat split; reflexivity]. apply Forall_map. repeat (apply Forall_cons; [split; [exact forwards_ok|discriminate]|]). apply Forall_nil.
Qed.
Local Opaque centred_gui_in.

(** Without the hypothesis that the size stays the same: the menu is written once, for the width that the terminal has
    then.  In a terminal that becomes narrower the entries are out of sight, although there is room for them. *)
Theorem C100_entries_readable_refuted : exists C U tz Y dir path w h es world g,
  Forall (fun x => oracles_ok (fst x)) es /\
  gui_process C U tz Y dir align_center path w h es world = (g, Ok true) /\ is_unlocked (session g) = true /\
  ui_w (g_ui g) = 30%Z /\ (28 <= ui_h (g_ui g))%Z /\
  exists items, (forall i, In i items <-> held (session g) i) /\ NoDup (map it_uid items) /\
    exists e, In e (entries_for items) /\ (Z.of_nat (length (entry_label items e)) + 3 <= 30)%Z /\ ~ readable g VMenu (entry_label items e).
Proof.
  pose (es := enter_freddy ++ [Resize 30 30]). pose (g := fst (centred_gui es)).
  exists toy_crypto, latin1, utc, toy_yaml, (b "/c"), [], 80%Z, 30%Z, (map (fun i => (forwards, i)) es), (vault_world (b "/v") []), g.
  pose (items := items_list (st_items (session g))). pose (blank := fun l => forallb (fun c => Ascii.eqb c " ") l).
  assert (E : (snd (centred_gui es), is_unlocked (session g), (ui_w (g_ui g), ui_h (g_ui g)), existsb (belongs All) items,
    (Z.of_nat (length (entry_label items All)) + 3 <=? 30)%Z,
    match view_of g VMenu with Some v => forallb (fun l => blank (firstn (Z.to_nat (v_w v)) (skipn (Z.to_nat (v_ox v)) l))) (text_lines (v_text v)) | None => true end) =
    (Ok true, true, (30%Z, 30%Z), true, true, true)) by (vm_compute; reflexivity).
  apply pair_eq in E. destruct E as [E E6]. apply pair_eq in E. destruct E as [E E5]. apply pair_eq in E. destruct E as [E E4].
  apply pair_eq in E. destruct E as [E E3]. apply pair_eq in E. destruct E as [E1 E2]. apply pair_eq in E3. destruct E3 as [E3 E3'].
  assert (Hes : Forall (fun x => oracles_ok (fst x)) (map (fun i => (forwards, i)) es)) by (apply Forall_map, Forall_forall; intros i _; exact forwards_ok).
  assert (Hg := centred_is (vault_world (b "/v") []) es E1).
  assert (R : running toy_crypto latin1 utc toy_yaml (b "/c") align_center g).
  { exists [], 80%Z, 30%Z, (map (fun i => (forwards, i)) es), (vault_world (b "/v") []). exact (conj Hes Hg). }
  assert (Hr := gi_reach _ _ _ _ _ (running_inv _ _ _ _ _ _ _ R)).
  split; [exact Hes|]. split; [exact Hg|]. split; [exact E2|]. split; [exact E3|]. split; [rewrite E3'; lia|]. exists items.
  split; [intros i; symmetry; apply (held_spec toy_crypto latin1 utc (session g) Hr)|]. split; [apply (inv_uids _ (reachable_inv toy_crypto latin1 utc _ Hr))|].
  clearbody items. exists All. split; [unfold entries_for; rewrite filter_In; split; [left; reflexivity|exact E4]|]. split; [now apply Z.leb_le|].
  intros (v & i & x & y & Ev & S). rewrite Ev in E6. unfold seen in S. destruct (_ && _)%bool; [|discriminate S].
  destruct (nth_error (text_lines (v_text v)) i) as [l|] eqn:El; [|discriminate S]. cbn [option_map] in S. injection S as S.
  rewrite forallb_forall in E6. specialize (E6 l (nth_error_In _ _ El)). cbv beta in E6. rewrite S in E6. unfold blank in E6.
  cbv beta in E6. rewrite forallb_forall in E6. assert (X : In "A"%char (repeat " "%char x ++ entry_label items All ++ repeat " "%char y)) by (apply in_or_app; right; left; reflexivity).
  specialize (E6 _ X). discriminate E6.
Qed.
Print Assumptions C100_entries_readable_refuted.
