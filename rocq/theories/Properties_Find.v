(** Finding the items of a vault in the GUI (C114, C115).  Histories, vaults, items and sizes are arbitrary. *)
From Verif Require Import Base Utf8 GoStrings Json Civil Crypto Path Fs FsProof Domain DomainProof Spec_Domain Repos Session SessionProof
  World WorldProof Config Updater Cli CliProof CliEvents Spec_Trim Spec_Vault VaultProof Toy ToyYaml Gui Spec_Gui GuiProof GuiRun GuiCursor GuiWorld.
From Verif Require Import Properties_Vault Properties_Layout Properties_Session Properties_Update Properties_Check Properties_Cli Properties_Cli2 Properties_Show Properties_End
  Properties_Gui Properties_Gui2.

Local Open Scope st_scope.

(** ** Specification *)

(** Keys pressed one after the other. *)
Definition pressed (O : oracles) (ks : list key) : list (oracles * input) := map (fun k => (O, Press k)) ks.

(** ** Lemmas *)

Section Find.
Variable C : crypto.
Variable U : unicode.
Variable tz : Z -> Z.
Variable Y : yaml.
Variable dir : bytes.
Variable center : bytes -> Z -> bytes.
Variable O : oracles.
Hypothesis HO : oracles_ok O.

Lemma pressed_app ks ks' g g1 g2 : play C U tz dir center (pressed O ks) g = (g1, Ok true) -> play C U tz dir center (pressed O ks') g1 = (g2, Ok true) ->
  play C U tz dir center (pressed O (ks ++ ks')) g = (g2, Ok true).
Proof. intros H1 H2. unfold pressed in *. rewrite map_app, play_app. unfold bind. now rewrite H1. Qed.

Lemma pressed_one k g g' : gui_step C U tz O dir center (Press k) g = (g', Ok true) -> play C U tz dir center (pressed O [k]) g = (g', Ok true).
Proof. intros H. cbn [pressed map play]. unfold bind. rewrite H. reflexivity. Qed.

Lemma press_fits k g g' : running C U tz Y dir center g -> fits g -> gui_step C U tz O dir center (Press k) g = (g', Ok true) -> fits g'.
Proof.
  intros R F E. assert (S := step_run C U tz dir center O (Press k) g HO (running_inv _ _ _ _ _ _ _ R)). rewrite E in S.
  destruct S as (_ & g1 & H & _ & Rs). unfold handle, get in H. unfold bind in H.
  destruct (sized_key C U tz O center (ui_cur (g_ui g)) k g) as [W Hh]. rewrite H in W, Hh. cbn [fst] in W, Hh.
  unfold fits in *. now rewrite (rs_w _ _ Rs), (rs_h _ _ Rs), W, Hh.
Qed.

Lemma menu_to t n g : running C U tz Y dir center g -> fits g -> current g = VMenu -> (0 <= t < Z.of_nat (length (entries g)))%Z ->
  Z.abs (t - g_menu_idx g) = Z.of_nat n ->
  exists ks g', play C U tz dir center (pressed O ks) g = (g', Ok true) /\ Forall (fun k => k = KDown \/ k = KUp) ks /\
    running C U tz Y dir center g' /\ fits g' /\ current g' = VMenu /\ session g' = session g /\ g_menu_idx g' = t.
Proof.
  revert g. induction n as [|n IH]; intros g R F Hc Ht Hn.
  - exists [], g. split; [reflexivity|]. split; [constructor|]. do 4 (split; [assumption || reflexivity|]). lia.
  - destruct (C71_selection_in_range _ _ _ _ _ _ _ R) as [Hw _]. unfold within in Hw.
    assert (Hl : Nat.eqb (length (entries g)) 0 = false) by (apply Nat.eqb_neq; lia). rewrite Hl in Hw.
    set (k := if (g_menu_idx g <? t)%Z then KDown else KUp).
    assert (Hk : k = KDown \/ k = KUp) by (unfold k; destruct (_ <? _)%Z; auto).
    destruct (C71_menu_moves C U tz Y dir center g O k R HO Hc F Hk) as (g1 & E1 & R1 & I1 & C1 & S1 & _).
    assert (F1 := press_fits k g g1 R F E1).
    assert (Le : entries g1 = entries g) by (unfold entries; now rewrite S1).
    destruct (IH g1 R1 F1 C1) as (ks & g2 & P & Fk & R2 & F2 & C2 & S2 & I2); [rewrite Le; exact Ht| |].
    + rewrite I1. unfold k. destruct (g_menu_idx g <? t)%Z eqn:E; cbn [moved]; bools.
      * destruct (g_menu_idx g + 1 <? Z.of_nat (length (entries g)))%Z eqn:E2; bools; lia.
      * destruct (0 <? g_menu_idx g)%Z eqn:E2; bools; lia.
    + exists (k :: ks), g2. split; [exact (pressed_app [k] ks g g1 g2 (pressed_one k g g1 E1) P)|]. split; [now constructor|].
      do 3 (split; [assumption|]). split; [congruence|exact I2].
Qed.

Lemma row_to t n g : running C U tz Y dir center g -> fits g -> current g = VItems -> (0 <= t < Z.of_nat (length (g_rows g)))%Z ->
  Z.abs (t - g_row_idx g) = Z.of_nat n ->
  exists ks g', play C U tz dir center (pressed O ks) g = (g', Ok true) /\ Forall (fun k => k = KDown \/ k = KUp) ks /\
    running C U tz Y dir center g' /\ fits g' /\ current g' = VItems /\ session g' = session g /\ g_rows g' = g_rows g /\ g_row_idx g' = t.
Proof.
  revert g. induction n as [|n IH]; intros g R F Hc Ht Hn.
  - exists [], g. split; [reflexivity|]. split; [constructor|]. do 5 (split; [assumption || reflexivity|]). lia.
  - destruct (C71_selection_in_range _ _ _ _ _ _ _ R) as [_ Hw]. specialize (Hw (or_introl Hc)). unfold within in Hw.
    assert (Hl : Nat.eqb (length (g_rows g)) 0 = false) by (apply Nat.eqb_neq; lia). rewrite Hl in Hw.
    set (k := if (g_row_idx g <? t)%Z then KDown else KUp).
    assert (Hk : k = KDown \/ k = KUp) by (unfold k; destruct (_ <? _)%Z; auto).
    destruct (C71_list_moves C U tz Y dir center g O k R HO Hc F Hk) as (g1 & E1 & R1 & I1 & L1 & C1 & S1 & _).
    assert (F1 := press_fits k g g1 R F E1).
    destruct (IH g1 R1 F1 C1) as (ks & g2 & P & Fk & R2 & F2 & C2 & S2 & L2 & I2); [rewrite L1; exact Ht| |].
    + rewrite I1. unfold k. destruct (g_row_idx g <? t)%Z eqn:E; cbn [moved]; bools.
      * destruct (g_row_idx g + 1 <? Z.of_nat (length (g_rows g)))%Z eqn:E2; bools; lia.
      * destruct (0 <? g_row_idx g)%Z eqn:E2; bools; lia.
    + exists (k :: ks), g2. split; [exact (pressed_app [k] ks g g1 g2 (pressed_one k g g1 E1) P)|]. split; [now constructor|].
      do 3 (split; [assumption|]). split; [congruence|]. split; [congruence|exact I2].
Qed.

(** Back to the menu from wherever the vault is open. *)
Lemma to_menu g : running C U tz Y dir center g -> fits g -> is_unlocked (session g) = true ->
  exists ks g', play C U tz dir center (pressed O ks) g = (g', Ok true) /\ Forall (fun k => k = KBack \/ k = KTab) ks /\
    running C U tz Y dir center g' /\ fits g' /\ current g' = VMenu /\ session g' = session g.
Proof.
  intros R F Hu. assert (G := running_inv _ _ _ _ _ _ _ R).
  assert (B : forall g, running C U tz Y dir center g -> fits g -> current g = VItems ->
    exists g', gui_step C U tz O dir center (Press KBack) g = (g', Ok true) /\ running C U tz Y dir center g' /\ fits g' /\ current g' = VMenu /\ session g' = session g).
  { intros h Rh Fh Ch. assert (Gh := running_inv _ _ _ _ _ _ _ Rh). destruct (back_inv C U tz dir center h Gh (or_introl Ch)) as [E Gb].
    destruct (press C U tz Y dir center O KBack h (back h) Rh HO ltac:(discriminate) Fh) as (h' & E' & R' & Rs & F'); [rewrite Ch; exact E|].
    exists h'. split; [exact E'|]. split; [exact R'|]. split; [exact F'|]. split; [rewrite (rs_cur _ _ Rs); reflexivity|].
    rewrite (resized_session C U tz dir center _ _ Rs). reflexivity. }
  assert (M := gi_mode _ _ _ _ _ G). unfold mode in M. destruct (current g) eqn:Hc; try contradiction.
  - exists [], g. split; [reflexivity|]. split; [constructor|]. auto.
  - destruct (B g R F Hc) as (g1 & E1 & R1 & F1 & C1 & S1). exists [KBack], g1. split; [exact (pressed_one _ _ _ E1)|]. split; [constructor; auto|]. auto.
  - destruct (C72_tab C U tz Y dir center g O R HO F (or_intror Hc)) as (g1 & E1 & R1 & C1 & _ & S1). rewrite Hc in C1.
    assert (F1 := press_fits KTab g g1 R F E1). destruct (B g1 R1 F1 C1) as (g2 & E2 & R2 & F2 & C2 & S2).
    exists ([KTab] ++ [KBack]), g2. split; [exact (pressed_app _ _ _ _ _ (pressed_one _ _ _ E1) (pressed_one _ _ _ E2))|]. split; [apply Forall_cons; [now right|apply Forall_cons; [now left|constructor]]|].
    do 3 (split; [assumption|]). congruence.
  - destruct M as ((M & _) & _). congruence.
  - destruct M as ((M & _) & _). congruence.
Qed.

Lemma entry_to g e n : running C U tz Y dir center g -> fits g -> current g = VMenu -> nth_error (entries g) n = Some e ->
  exists ks g', play C U tz dir center (pressed O ks) g = (g', Ok true) /\ running C U tz Y dir center g' /\ fits g' /\ current g' = VItems /\
    session g' = session g /\ selected_entry g' = Some e /\ g_menu_idx g' = Z.of_nat n.
Proof.
  intros R F Hc Hn. assert (L : n < length (entries g)) by (apply nth_error_Some; congruence).
  destruct (menu_to (Z.of_nat n) (Z.to_nat (Z.abs (Z.of_nat n - g_menu_idx g))) g R F Hc) as (ks & g1 & P & _ & R1 & F1 & C1 & S1 & I1); [lia|lia|].
  assert (Le : entries g1 = entries g) by (unfold entries; now rewrite S1).
  assert (He : selected_entry g1 = Some e).
  { unfold selected_entry. rewrite I1, Le, Nat2Z.id. replace (Z.of_nat n <? 0)%Z with false by (symmetry; apply Z.ltb_ge; lia). exact Hn. }
  destruct (C69_entry_opens C U tz Y dir center g1 e O KEnter R1 C1 He F1 HO (or_introl eq_refl)) as (g2 & E2 & R2 & C2 & He2 & S2 & _).
  exists (ks ++ [KEnter]), g2. split; [exact (pressed_app _ _ _ _ _ P (pressed_one _ _ _ E2))|]. split; [exact R2|]. split; [exact (press_fits _ _ _ R1 F1 E2)|].
  split; [exact C2|]. split; [congruence|]. split; [exact He2|].
  assert (S := step_run C U tz dir center O (Press KEnter) g1 HO (running_inv _ _ _ _ _ _ _ R1)). rewrite E2 in S. destruct S as (_ & h & Eh & _ & Rs).
  unfold handle, get in Eh. unfold bind at 1 in Eh. change (ui_cur (g_ui g1)) with (current g1) in Eh. rewrite C1 in Eh. cbn [on_key] in Eh.
  destruct (open_entry_run C U tz dir center O g1 (running_inv _ _ _ _ _ _ _ R1) C1) as (h' & Eh' & _ & _ & _ & Ih & _); [lia|exact F1|].
  rewrite (rs_midx _ _ Rs). congruence.
Qed.

End Find.

Lemma all_entry C U tz g i : reachable C U tz (session g) -> is_unlocked (session g) = true -> held (session g) i -> it_trashed i = false ->
  nth_error (entries g) 0 = Some All /\ 1 < length (entries g).
Proof.
  intros Hr Hu Hh Ht. apply (held_spec C U tz _ Hr) in Hh. assert (Hcat := inv_cats _ (reachable_inv C U tz _ Hr)). rewrite Forall_forall in Hcat. specialize (Hcat i Hh). apply in_published in Hcat.
  unfold entries. rewrite Hu. unfold entries_for, all_entries. set (f := fun e => existsb (belongs e) (items_list (st_items (session g)))).
  assert (Fa : f All = true) by (apply existsb_exists; exists i; split; [exact Hh|cbn [belongs]; now rewrite Ht]).
  cbn [filter]. rewrite Fa. split; [reflexivity|]. cbn [length].
  assert (Hin : In (Of (it_cat i)) (filter f (map (fun c => Of (Cat (fst c) (snd c))) published ++ [Trash]))).
  { apply filter_In. split.
    - apply in_or_app. left. apply in_map_iff. exists (cat_code (it_cat i), cat_name (it_cat i)). split; [|exact Hcat]. cbn [fst snd]. now destruct (it_cat i).
    - apply existsb_exists. exists i. split; [exact Hh|]. cbn [belongs]. rewrite Ht. cbn [negb andb]. apply andb_true_iff. split; now apply bytes_eqb_eq. }
  destruct (filter f _); [destruct Hin|cbn [length]; lia].
Qed.

Lemma trash_entry C U tz g i : reachable C U tz (session g) -> is_unlocked (session g) = true -> held (session g) i -> it_trashed i = true ->
  exists n, nth_error (entries g) n = Some Trash.
Proof.
  intros Hr Hu Hh Ht. apply (held_spec C U tz _ Hr) in Hh. apply In_nth_error. unfold entries. rewrite Hu. apply filter_In. split.
  - unfold all_entries. right. apply in_or_app. right. now left.
  - apply existsb_exists. exists i. split; [exact Hh|exact Ht].
Qed.

(** ** C114 *)

(** Wherever the user is in an open vault, there are keys that lead to any of its items, in the trash or not: first
    shown without its secrets, selected in the list, and after TAB with them. *)
Theorem C114_every_item_found : forall C U tz Y dir center g O i,
  running C U tz Y dir center g -> fits g -> oracles_ok O -> is_unlocked (session g) = true -> held (session g) i ->
  exists ks g' g'', play C U tz dir center (pressed O ks) g = (g', Ok true) /\ running C U tz Y dir center g' /\
    current g' = VItems /\ session g' = session g /\ chosen_row g' = Some (row_of i) /\ shown g' VDetails = Some (full_text tz (masked i)) /\
    gui_step C U tz O dir center (Press KTab) g' = (g'', Ok true) /\ running C U tz Y dir center g'' /\
    current g'' = VDetails /\ session g'' = session g /\ chosen_row g'' = Some (row_of i) /\ shown g'' VDetails = Some (full_text tz i).
Proof.
  intros C U tz Y dir center g O i R F HO Hu Hh. assert (Hr := gi_reach _ _ _ _ _ (running_inv _ _ _ _ _ _ _ R)).
  assert (Same : forall s i', s = session g -> held s i' -> row_of i' = row_of i -> i' = i).
  { intros s i' -> H' E. unfold held in *. unfold row_of in E. injection E as _ _ E1 E2. rewrite E1, E2 in H'. congruence. }
  destruct (to_menu C U tz Y dir center O HO g R F Hu) as (k0 & g0 & P0 & _ & R0 & F0 & C0 & S0).
  assert (He : exists n e, nth_error (entries g0) n = Some e /\ belongs e i = true /\
     ((exists i, held (session g0) i /\ it_trashed i = true) \/ n + 1 < length (entries g0))).
  { destruct (it_trashed i) eqn:Ht.
    - destruct (trash_entry C U tz g0 i) as (n & Hn); try congruence. exists n, Trash. split; [exact Hn|]. split; [exact Ht|]. left. exists i. rewrite S0. auto.
    - destruct (all_entry C U tz g0 i) as (Hn & Hl); try congruence. exists 0, All. split; [exact Hn|]. split; [cbn [belongs]; now rewrite Ht|]. right. exact Hl. }
  destruct He as (n & e & Hn & Hb & Hg).
  destruct (entry_to C U tz Y dir center O HO g0 e n R0 F0 C0 Hn) as (k1 & g1 & P1 & R1 & F1 & C1 & S1 & He & I1).
  assert (Le : entries g1 = entries g0) by (unfold entries; now rewrite S1).
  destruct (C69_entry_shows_its_items_partial C U tz Y dir center g1 e R1 (or_introl C1) He) as (rows & (Hrows & _) & Er & _).
  { rewrite S1, Le, I1. destruct Hg as [Hg|Hg]; [now left|right; lia]. }
  assert (Hin : In (row_of i) (g_rows g1)) by (rewrite Er; apply Hrows; exists i; split; [rewrite S1, S0; exact Hh|auto]).
  apply In_nth_error in Hin. destruct Hin as (m & Hm). assert (L : m < length (g_rows g1)) by (apply nth_error_Some; congruence).
  destruct (row_to C U tz Y dir center O HO (Z.of_nat m) (Z.to_nat (Z.abs (Z.of_nat m - g_row_idx g1))) g1 R1 F1 C1) as (k2 & g2 & P2 & _ & R2 & F2 & C2 & S2 & L2 & I2); [lia|lia|].
  assert (Hch : chosen_row g2 = Some (row_of i)).
  { unfold chosen_row. rewrite I2, L2, Nat2Z.id. replace (Z.of_nat m <? 0)%Z with false by (symmetry; apply Z.ltb_ge; lia). exact Hm. }
  assert (Sg : session g2 = session g) by congruence.
  destruct (C72_tab C U tz Y dir center g2 O R2 HO F2) as (g3 & E3 & R3 & C3 & H3 & S3); [left; split; [exact C2|congruence]|]. rewrite C2 in C3.
  exists (k0 ++ k1 ++ k2), g2, g3. split; [exact (pressed_app _ _ _ _ _ _ _ _ _ _ _ P0 (pressed_app _ _ _ _ _ _ _ _ _ _ _ P1 P2))|].
  split; [exact R2|]. split; [exact C2|]. split; [exact Sg|]. split; [exact Hch|]. split.
  { destruct (C72_masked_unless_revealed C U tz Y dir center g2 R2) as [H|[[_ H]|(i' & H1 & H2 & H4)]]; [congruence| |congruence|].
    - exfalso. assert (M := gi_mode _ _ _ _ _ (running_inv _ _ _ _ _ _ _ R2)). unfold mode in M. rewrite C2 in M. destruct M as (_ & (_ & _ & _ & _ & M5) & _). congruence.
    - assert (i' = i) as -> by (apply (Same (session g2)); congruence || assumption). exact H4. }
  split; [exact E3|]. split; [exact R3|]. split; [exact C3|]. split; [congruence|]. split; [congruence|].
  destruct (C72_revealed_item C U tz Y dir center g3 R3 C3) as (i' & H1 & H2 & H4).
  assert (i' = i) as -> by (apply (Same (session g3)); congruence || assumption). exact H4.
Qed.
Print Assumptions C114_every_item_found.

(** From the password on: every item that is stored in the vault can be read by pressing ENTER and further keys. *)
Theorem C114_stored_item_found : forall C U, crypto_ok C -> unicode_ok U ->
  forall tz Y dir center g O password ks items s0 i,
  running C U tz Y dir center g -> oracles_ok O -> current g = VPrompt -> fits g ->
  vault_at C U tz (w_disk (a_world (g_app g))) (g_vault g) password ks items ->
  validate (w_disk (a_world (g_app g))) (g_vault g) init = Ok (s0, None) -> st_profile s0 = st_profile (session g) ->
  trimmed (typed g) password -> In i items ->
  exists keys_ g', play C U tz dir center (pressed O (KEnter :: keys_)) g = (g', Ok true) /\ running C U tz Y dir center g' /\
    current g' = VDetails /\ chosen_row g' = Some (row_of i) /\ shown g' VDetails = Some (full_text tz i).
Proof.
  intros C U HC HU tz Y dir center g O password ks items s0 i R HO Hc F Hv Hval Hp Ht Hi.
  destruct (C68_menu_of_stored_vault C U HC HU tz Y dir center g O password ks items s0 R HO Hc F Hv Hval Hp Ht) as (g1 & items' & w & E1 & R1 & C1 & U1 & _ & _ & Hh).
  assert (F1 := press_fits C U tz Y dir center O HO KEnter g g1 R F E1).
  destruct (C114_every_item_found C U tz Y dir center g1 O i R1 F1 HO U1) as (k2 & g2 & g3 & P2 & _ & _ & _ & _ & _ & E3 & R3 & C3 & _ & H3 & V3); [apply Hh; exact Hi|].
  exists (k2 ++ [KTab]), g3. split; [|auto].
  apply (pressed_app C U tz dir center O [KEnter] (k2 ++ [KTab]) g g1 g3); [exact (pressed_one C U tz dir center O KEnter g g1 E1)|].
  exact (pressed_app C U tz dir center O k2 [KTab] g1 g2 g3 P2 (pressed_one C U tz dir center O KTab g2 g3 E3)).
Qed.
Print Assumptions C114_stored_item_found.

Lemma found_example (p : gui * res bool) :
  (snd p, is_unlocked (session (fst p)), ui_w (g_ui (fst p)), ui_h (g_ui (fst p)),
   option_map (fun i => (it_uid i, it_trashed i)) (get_item (b "CC") true (session (fst p))),
   option_map (fun i => (it_uid i, it_trashed i)) (get_item (b "BB") false (session (fst p)))) =
  (Ok true, true, 80%Z, 24%Z, Some (b "CC", true), Some (b "BB", false)) ->
  snd p = Ok true /\ fits (fst p) /\ is_unlocked (session (fst p)) = true /\
  exists i j, held (session (fst p)) i /\ it_trashed i = true /\ held (session (fst p)) j /\ it_trashed j = false.
Proof.
  intros E. apply pair_eq in E. destruct E as [E E6]. apply pair_eq in E. destruct E as [E E5]. apply pair_eq in E. destruct E as [E E4]. apply pair_eq in E. destruct E as [E E3]. apply pair_eq in E. destruct E as [E1 E2].
  split; [exact E1|]. split; [unfold fits; rewrite E3, E4; lia|]. split; [exact E2|].
  destruct (get_item (b "CC") true (session (fst p))) as [i|] eqn:Gi; [|discriminate E5]. destruct (get_item (b "BB") false (session (fst p))) as [j|] eqn:Gj; [|discriminate E6].
  cbn [option_map] in E5, E6. injection E5 as A1 A2. injection E6 as B1 B2.
  exists i, j. unfold held. rewrite A1, A2, B1, B2. auto.
Qed.

(** The demo vault just opened, for [C114_every_item_found]; for the other theorem see [C68_stored_example].  It has items in the trash and outside of it. *)
Example C114_example :
  let g := fst (demo_gui (vault_world (b "/v") []) enter_freddy) in
  demo_running g /\ fits g /\ oracles_ok forwards /\ is_unlocked (session g) = true /\
  exists i j, held (session g) i /\ it_trashed i = true /\ held (session g) j /\ it_trashed j = false.
Proof.
  destruct (found_example (demo_gui (vault_world (b "/v") []) enter_freddy)) as (E1 & E2 & E3 & E4); [vm_compute; reflexivity|].
  cbv zeta. split; [exact (demo_runs _ _ E1)|]. split; [exact E2|]. split; [exact forwards_ok|]. split; [exact E3|exact E4].
Qed.

(** ** C115 *)

(** From every state one key at most leads to the empty prompt, and the vault on the disk and the profile stay. *)
Lemma to_prompt C U tz Y dir center O g : oracles_ok O -> running C U tz Y dir center g -> fits g ->
  exists ks g', play C U tz dir center (pressed O ks) g = (g', Ok true) /\ length ks <= 1 /\ running C U tz Y dir center g' /\ fits g' /\ current g' = VPrompt /\
    st_profile (session g') = st_profile (session g) /\ g_vault g' = g_vault g /\ a_world (g_app g') = a_world (g_app g).
Proof.
  intros HO R F. assert (G := running_inv _ _ _ _ _ _ _ R). assert (M := gi_mode _ _ _ _ _ G).
  assert (Lk : forall g1, on_key C U tz O center (current g) KLock g = (g1, Ok true) -> locked_look C U tz center g g1 ->
    exists ks g', play C U tz dir center (pressed O ks) g = (g', Ok true) /\ length ks <= 1 /\ running C U tz Y dir center g' /\ fits g' /\ current g' = VPrompt /\
      st_profile (session g') = st_profile (session g) /\ g_vault g' = g_vault g /\ a_world (g_app g') = a_world (g_app g)).
  { intros g1 E (_ & C1 & S1 & _ & _ & _ & _ & _ & _ & _ & _ & _ & V1 & W1 & _).
    destruct (press C U tz Y dir center O KLock g g1 R HO ltac:(discriminate) F E) as (g' & E' & R' & Rs & F').
    exists [KLock], g'. split; [exact (pressed_one _ _ _ _ _ _ _ _ _ E')|]. split; [auto|]. split; [exact R'|]. split; [exact F'|]. split; [rewrite (rs_cur _ _ Rs); exact C1|].
    rewrite (resized_session C U tz dir center _ _ Rs), S1, (rs_vault _ _ Rs), (rs_app _ _ Rs). auto. }
  unfold mode in M. destruct (current g) eqn:Hc; try contradiction.
  - destruct (menu_lock_run C U tz dir center g G Hc) as (g1 & E & L). exact (Lk g1 E L).
  - destruct (items_lock_run C U tz dir center g G (or_introl Hc)) as (g1 & E & L). exact (Lk g1 E L).
  - destruct (items_lock_run C U tz dir center g G (or_intror Hc)) as (g1 & E & L). exact (Lk g1 E L).
  - exists [], g. split; [reflexivity|]. split; [auto|]. auto 10.
  - destruct (close_error_run C U tz dir center g G Hc) as (g1 & E & _ & C1 & S1 & (W1 & _ & V1 & _) & _).
    destruct (press C U tz Y dir center O KEnter g g1 R HO ltac:(discriminate) F) as (g' & E' & R' & Rs & F'); [rewrite Hc; exact E|].
    exists [KEnter], g'. split; [exact (pressed_one _ _ _ _ _ _ _ _ _ E')|]. split; [auto|]. split; [exact R'|]. split; [exact F'|]. split; [rewrite (rs_cur _ _ Rs); exact C1|].
    rewrite (resized_session C U tz dir center _ _ Rs), S1, (rs_vault _ _ Rs), (rs_app _ _ Rs). auto.
Qed.

(** Whatever was done before - wrong passwords, errors on the screen, locking, any keys -, while the vault is on the disk
    the right password leads to every item of it: after at most one key, the password, ENTER and further keys. *)
Theorem C115_never_locked_out : forall C U, crypto_ok C -> unicode_ok U ->
  forall tz Y dir center g O password text ks items s0 i,
  running C U tz Y dir center g -> oracles_ok O -> fits g ->
  vault_at C U tz (w_disk (a_world (g_app g))) (g_vault g) password ks items ->
  validate (w_disk (a_world (g_app g))) (g_vault g) init = Ok (s0, None) -> st_profile s0 = st_profile (session g) ->
  trimmed text password -> In i items ->
  exists before after_ g', length before <= 1 /\
    play C U tz dir center (pressed O before ++ (O, Typed text) :: pressed O (KEnter :: after_)) g = (g', Ok true) /\ running C U tz Y dir center g' /\
    current g' = VDetails /\ chosen_row g' = Some (row_of i) /\ shown g' VDetails = Some (full_text tz i).
Proof.
  intros C U HC HU tz Y dir center g O password text ks items s0 i R HO F Hv Hval Hp Ht Hi.
  destruct (to_prompt C U tz Y dir center O g HO R F) as (k0 & g0 & P0 & L0 & R0 & F0 & C0 & S0 & V0 & W0).
  destruct (type_step C U tz Y dir center g0 O text R0 HO F0 C0) as (g1 & E1 & R1 & F1 & C1 & T1 & S1 & V1 & A1).
  destruct (C114_stored_item_found C U HC HU tz Y dir center g1 O password ks items s0 i R1 HO C1 F1) as (k2 & g2 & P2 & R2 & C2 & H2 & X2).
  - rewrite A1, W0, V1, V0. exact Hv.
  - rewrite A1, W0, V1, V0. exact Hval.
  - congruence.
  - rewrite T1. exact Ht.
  - exact Hi.
  - exists k0, k2, g2. split; [exact L0|]. split; [|auto]. rewrite play_app. unfold bind at 1. rewrite P0. cbn [play]. unfold bind at 1. rewrite E1. exact P2.
Qed.
Print Assumptions C115_never_locked_out.

(** After a wrong password, with the error on the screen; the hypotheses about the vault hold as in [C68_stored_example]. *)
Example C115_example :
  let g := fst (demo_gui (vault_world (b "/v") []) [Typed (b "wrong"); Press KEnter]) in
  demo_running g /\ current g = VError /\ fits g /\
  vault_at toy_crypto latin1 utc (w_disk (a_world (g_app g))) (g_vault g) (b "freddy") demo_keys demo_items /\
  exists s0, validate (w_disk (a_world (g_app g))) (g_vault g) init = Ok (s0, None) /\ st_profile s0 = st_profile (session g).
Proof.
  split; [apply demo_runs; vm_compute; reflexivity|]. split; [reflexivity|]. split; [vm_compute; split; discriminate|]. split.
  - replace (w_disk (a_world (g_app (fst (demo_gui (vault_world (b "/v") []) [Typed (b "wrong"); Press KEnter]))))) with (w_disk (vault_world (b "/v") [b "freddy"])) by (vm_compute; reflexivity).
    change (g_vault (fst (demo_gui (vault_world (b "/v") []) [Typed (b "wrong"); Press KEnter]))) with (b "/v").
    apply demo_at.
  - eexists. split; vm_compute; reflexivity.
Qed.
