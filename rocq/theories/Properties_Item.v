(** What is shown of an item: its times and whether it is in the trash (C90), and all of it in the
    window (C64).  Items, time zones and histories are arbitrary. *)
From Verif Require Import Base Utf8 GoStrings Base64 Float64 Json Spec_Civil CivilProof Spec_Item Civil Crypto CryptoProof Path Fs Domain DomainProof Repos Session SessionProof
  World WorldProof Config Updater Cli CliProof CliEvents Spec_Vault Spec_Writer Spec_Domain VaultProof Toy ToyYaml Gui Spec_Gui GuiProof GuiRun.
From Verif Require Import Properties_Vault Properties_Session Properties_Update Properties_Check Properties_Cli Properties_Show Properties_End Properties_Gui Properties_Gui2.
Local Notation newline := World.newline.

(** ** Specification *)

(** At the Unix time [u] the local calendar and clock show year-month-day hour:minute:second. *)
Definition local_time (tz : Z -> Z) (u y mo d h mi s : Z) : Prop :=
  valid_date y mo d /\ (0 <= h < 24)%Z /\ (0 <= mi < 60)%Z /\ (0 <= s < 60)%Z /\
  (day_number y mo d * 86400 + h * 3600 + mi * 60 + s = u + tz u)%Z.
Definition time_text (y mo d h mi s : Z) : bytes :=
  date_text y mo d ++ b " " ++ two_digits h ++ b ":" ++ two_digits mi ++ b ":" ++ two_digits s.

(** [t] is the text of the Unix time [u] (years of four digits). *)
Definition shows_time (tz : Z -> Z) (u : Z) (t : bytes) : Prop := exists y mo d h mi s,
  local_time tz u y mo d h mi s /\ (0 <= y <= 9999)%Z /\ t = time_text y mo d h mi s.

Definition trash_text (i : item) : bytes := if it_trashed i then b "true" else b "false".

(** ** Lemmas *)

(** The years 0 to 9999 are far from where the computation wraps around. *)
Lemma years_in_range tz u y mo d h mi s : local_time tz u y mo d h mi s -> (0 <= y <= 9999)%Z -> civil_range (u + tz u).
Proof.
  intros (Hv & Hh & Hm & Hs & E) Hy. apply year_day_range in Hv. assert (L := leap_day_range y).
  unfold civil_range. rewrite <- E. unfold day_number, days_of_years in *. unfold abs_epoch_days. lia.
Qed.

Lemma format_time_spec tz u t : shows_time tz u t -> format_time tz u = t.
Proof.
  intros (y & mo & d & h & mi & s & Hl & Hy & ->). assert (Hr := years_in_range _ _ _ _ _ _ _ _ Hl Hy). destruct Hl as (Hv & Hh & Hm & Hs & E).
  assert (Hday : (day_number y mo d = (u + tz u) / 86400)%Z).
  { apply (Z.div_unique_pos _ 86400 _ (h * 3600 + mi * 60 + s)); lia. }
  assert (Hsec : ((u + tz u) mod 86400 = h * 3600 + mi * 60 + s)%Z).
  { symmetry. apply (Z.mod_unique_pos _ 86400 (day_number y mo d)); lia. }
  unfold format_time, time_text. rewrite (format_date_spec tz u y mo d) by (assumption || lia).
  unfold uint64. unfold civil_range in Hr. rewrite (Z.mod_small (u + tz u + abs_epoch_days * 86400)) by exact Hr.
  rewrite Z.mod_add by discriminate. rewrite Hsec. cbv zeta.
  replace ((h * 3600 + mi * 60 + s) / 3600)%Z with h by (apply (Z.div_unique_pos _ 3600 _ (mi * 60 + s)); lia).
  replace ((h * 3600 + mi * 60 + s) mod 3600)%Z with (mi * 60 + s)%Z by (apply (Z.mod_unique_pos _ 3600 h); lia).
  replace ((mi * 60 + s) / 60)%Z with mi by (apply (Z.div_unique_pos _ 60 _ s); lia).
  replace ((h * 3600 + mi * 60 + s) mod 60)%Z with s by (apply (Z.mod_unique_pos _ 60 (h * 60 + mi)); lia).
  rewrite !pad_two by lia. reflexivity.
Qed.

Lemma lines_times tz i mk up cr : shows_time tz (it_updated i) up -> shows_time tz (it_created i) cr ->
  exists before after, map (fun l => l ++ newline) (item_lines tz mk i) = before ++
    (b "Updated: " ++ up ++ newline ++ b "Created: " ++ cr ++ newline ++ b "Trashed: " ++ trash_text i ++ newline) :: after.
Proof.
  intros Hu Hcr. apply format_time_spec in Hu. apply format_time_spec in Hcr.
  unfold item_lines. rewrite Hu, Hcr. rewrite map_app. cbn [map].
    assert (E : (b "Updated: " ++ up ++ nl ++ b "Created: " ++ cr ++ nl ++ b "Trashed: " ++ bool_text (it_trashed i)) ++ newline =
      b "Updated: " ++ up ++ newline ++ b "Created: " ++ cr ++ newline ++ b "Trashed: " ++ trash_text i ++ newline)
      by (rewrite <- !app_assoc; reflexivity).
    rewrite E. eexists [_; _; _; _; _]. eexists. reflexivity.
Qed.

(** ** C90 *)

(** overview and details show when the item was changed and created, by the local calendar and clock, and whether it is in
    the trash. *)
Theorem C90_times_shown : forall C U tz O Y T render dir c v uid trashed a a1 i up cr,
  c = CmdOverview v uid trashed \/ c = CmdDetails v uid trashed ->
  Cli.open_vault C U tz O Y dir v a = (a1, Ok tt) -> get_item uid trashed (a_vault a1) = Some i ->
  shows_time tz (it_updated i) up -> shows_time tz (it_created i) cr ->
  exists before after, screen (a_world (fst (run_command C U tz O Y T render dir c a))) =
    screen (a_world a1) ++ before ++
    (b "Updated: " ++ up ++ newline ++ b "Created: " ++ cr ++ newline ++ b "Trashed: " ++ trash_text i ++ newline) :: after.
Proof.
  intros C U tz O Y T render dir c v uid trashed a a1 i up cr Hc Ho Hi Hu Hcr.
  assert (G := fun mk => lines_times tz i mk up cr Hu Hcr).
  destruct Hc as [-> | ->].
  - destruct (shown_overview C U tz O Y T render dir v uid trashed a a1 Ho) as [-> _]. rewrite Hi. destruct (G true) as (x & y & ->). eauto.
  - destruct (shown_details C U tz O Y T render dir v uid trashed a a1 Ho) as [-> _]. rewrite Hi. destruct (G false) as (x & y & ->). eauto.
Qed.
Print Assumptions C90_times_shown.

Lemma text_times tz i j up cr : shows_time tz (it_updated i) up -> shows_time tz (it_created i) cr -> j = i \/ j = masked i ->
  exists before after, full_text tz j = concat (map (fun l => l ++ newline)
    (before ++ [b "Updated: " ++ up; b "Created: " ++ cr; b "Trashed: " ++ trash_text i] ++ after)).
Proof.
  intros Hu Hcr Hj. apply format_time_spec in Hu. apply format_time_spec in Hcr.
  exists [cat_name (it_cat i); b "------------------------------"; it_title i; []]. eexists.
  assert (E : it_cat j = it_cat i /\ it_title j = it_title i /\ it_updated j = it_updated i /\ it_created j = it_created i /\ it_trashed j = it_trashed i)
    by (destruct Hj as [-> | ->]; repeat split).
  destruct E as (E1 & E2 & E3 & E4 & E5). unfold full_text, Gui.details_lines, join_lines. rewrite E1, E2, E3, E4, E5, Hu, Hcr. cbn [Datatypes.app]. reflexivity.
Qed.

(** In the window they are shown likewise for the selected item, whether its secrets are masked or not. *)
Theorem C90_times_in_window : forall C U tz Y dir center g,
  running C U tz Y dir center g -> shown g VDetails <> None -> chosen_row g <> None ->
  exists i, held (session g) i /\ chosen_row g = Some (row_of i) /\
  forall up cr, shows_time tz (it_updated i) up -> shows_time tz (it_created i) cr ->
  exists before after, shown g VDetails = Some (concat (map (fun l => l ++ newline)
    (before ++ [b "Updated: " ++ up; b "Created: " ++ cr; b "Trashed: " ++ trash_text i] ++ after))).
Proof.
  intros C U tz Y dir center g R Hs Hc.
  assert (G : exists i j, held (session g) i /\ chosen_row g = Some (row_of i) /\ (j = i \/ j = masked i) /\ shown g VDetails = Some (full_text tz j)).
  { assert (D : current g = VDetails \/ current g <> VDetails) by (destruct (current g); first [now left|right; discriminate]).
    destruct D as [D|D].
    - destruct (C72_revealed_item C U tz Y dir center g R D) as (i & H1 & H2 & H3). exists i, i. auto.
    - destruct (C72_masked_unless_revealed C U tz Y dir center g R D) as [H|[[_ H]|(i & H1 & H2 & H3)]]; [contradiction|contradiction|].
      exists i, (masked i). auto. }
  destruct G as (i & j & H1 & H2 & H3 & H4). exists i. split; [exact H1|]. split; [exact H2|]. intros up cr Hu Hcr.
  destruct (text_times tz i j up cr Hu Hcr H3) as (x & y & E). exists x, y. rewrite H4, E. reflexivity.
Qed.
Print Assumptions C90_times_in_window.

Example C90_example : shows_time utc 1400000000 (b "2014-05-13 16:53:20") /\
  shows_time (fun _ => 7200%Z) 951865199 (b "2000-03-01 00:59:59") /\
  shows_time utc (-1) (b "1969-12-31 23:59:59").
Proof.
  assert (V : forall y m d, (1 <= m <= 12)%Z -> (1 <= d <= month_length y m)%Z -> valid_date y m d) by (intros; split; assumption).
  split; [exists 2014%Z, 5%Z, 13%Z, 16%Z, 53%Z, 20%Z|split; [exists 2000%Z, 3%Z, 1%Z, 0%Z, 59%Z, 59%Z|exists 1969%Z, 12%Z, 31%Z, 23%Z, 59%Z, 59%Z]];
    (split; [split; [apply V; vm_compute; split; discriminate|]; split; [lia|]; split; [lia|]; split; [lia|vm_compute; reflexivity]|split; [lia|vm_compute; reflexivity]]).
Qed.

(** ** C64 *)

(** While an item is revealed in the window, its text shows all sections with their fields and values in order, and
    then the notes. *)
Theorem C64_window_shows_everything : forall C U tz Y dir center g,
  running C U tz Y dir center g -> current g = VDetails ->
  exists i head tail, held (session g) i /\ chosen_row g = Some (row_of i) /\
    shown g VDetails = Some (concat (map (fun l => l ++ newline) (head ++ flat_map section_lines (it_sections i) ++ tail))) /\
    In (it_title i) head /\ In (cat_name (it_cat i)) head /\
    (it_url i <> [] -> In (b "URL: " ++ it_url i) head) /\
    (it_notes i <> [] -> exists x, tail = x ++ [b "Notes"; b "------------------------------"; it_notes i]).
Proof.
  intros C U tz Y dir center g R Hc. destruct (C72_revealed_item C U tz Y dir center g R Hc) as (i & Hh & Hr & Hs).
  set (top := [ cat_name (it_cat i); b "------------------------------"; it_title i; [];
    b "Updated: " ++ format_time tz (it_updated i); b "Created: " ++ format_time tz (it_created i); b "Trashed: " ++ bool_text (it_trashed i) ]).
  set (url := match it_url i with [] => [] | _ => [b "URL: " ++ it_url i] end).
  set (notes := match it_notes i with [] => [] | _ => (match it_sections i with [] => [ [] ] | _ => [] end) ++ [ b "Notes"; b "------------------------------"; it_notes i ] end).
  exists i, (top ++ url), ((match it_sections i with [] => [] | _ => [[]] end) ++ notes).
  split; [exact Hh|]. split; [exact Hr|]. split; [|split; [|split; [|split]]].
  - rewrite Hs. apply f_equal. unfold full_text, join_lines. apply f_equal. apply f_equal. unfold Gui.details_lines. fold top url notes.
    rewrite <- (app_assoc top url). apply f_equal. apply f_equal. unfold notes. destruct (it_sections i) as [|s ss]; [reflexivity|].
    rewrite <- app_assoc. reflexivity.
  - apply in_or_app. left. unfold top. cbn. auto.
  - apply in_or_app. left. unfold top. cbn. auto.
  - intros Hu. apply in_or_app. right. unfold url. destruct (it_url i); [congruence|now left].
  - intros Hn. unfold notes. destruct (it_notes i) as [|n ns] eqn:En; [congruence|].
    destruct (it_sections i); [exists [[]]|exists [[]]]; reflexivity.
Qed.
Print Assumptions C64_window_shows_everything.

(** The state of C72_example, in which an item is revealed, meets the conditions. *)
Definition some_b {A} (o : option A) : bool := match o with Some _ => true | None => false end.
Lemma is_some {A} (o : option A) : some_b o = true -> o <> None.
Proof. now destruct o. Qed.
Example C64_window_example : exists g, demo_running g /\ current g = VDetails /\ shown g VDetails <> None /\ chosen_row g <> None.
Proof.
  set (es := enter_freddy ++ [Press KEnter; Press KDown; Press KTab]). set (p := demo_gui (vault_world (b "/v") []) es).
  assert (E : (snd p, current (fst p), some_b (shown (fst p) VDetails),
     some_b (chosen_row (fst p))) = (Ok true, VDetails, true, true)) by (vm_compute; reflexivity).
  exists (fst p). apply pair_eq in E. destruct E as [E E4]. apply pair_eq in E. destruct E as [E E3]. apply pair_eq in E. destruct E as [E1 E2].
  split; [exact (demo_runs _ _ E1)|]. split; [exact E2|]. split; [apply is_some; exact E3|apply is_some; exact E4].
Qed.
