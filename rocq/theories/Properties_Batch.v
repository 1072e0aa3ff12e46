(** Events that wait together, and what the terminal shows (C104, C105). *)
From Verif Require Import Base Utf8 GoStrings GoStringsProof Json Civil Crypto Path Fs Domain Spec_Domain Repos Session SessionProof
  World WorldProof Config Updater Cli CliProof Spec_Release Toy ToyYaml Gui Spec_Gui GuiProof GuiRun GuiCursor GuiWorld Batch Spec_Batch BatchProof.
From Verif Require Import Properties_Session Properties_Cli Properties_Show Properties_End Properties_Update Properties_Gui Properties_Gui2 Properties_Gui3 Properties_Release Properties_TopLine.

Local Open Scope st_scope.

(** ** Specification *)

(** The choices of the runtime while the events are handled are possible ones. *)
Definition possible (rs : list round) : Prop := Forall (fun e => oracles_ok (fst e)) (concat (map events_of rs)).

(** The terminal after any events since the start of the program, in any portions. *)
Definition on_terminal (C : crypto) (U : unicode) (tz : Z -> Z) (Y : yaml) (dir : bytes) (center : bytes -> Z -> bytes) (s : term) : Prop :=
  exists path w h rs world, possible rs /\ gui_rounds C U tz dir center Y path w h rs world = (s, Ok true).

(** ** C104 *)

Lemma rounds_like_process C U tz Y dir center path w h rs world s r : possible rs ->
  gui_rounds C U tz dir center Y path w h rs world = (s, r) ->
  exists es g, Forall (fun e => oracles_ok (fst e)) es /\ (r = Ok true -> checks es = checks (concat (map events_of rs))) /\
    gui_process C U tz Y dir center path w h es world = (g, r) /\ same_gui (t_gui s) g.
Proof.
  intros Hp E. unfold gui_rounds in E. destruct (gui_process C U tz Y dir center path w h [] world) as [g0 r0] eqn:E0.
  assert (D : r0 = Ok true \/ r0 <> Ok true) by (destruct r0 as [[|]| |n]; [now left|right|right|right]; discriminate).
  destruct D as [->|D].
  - destruct (process_play _ _ _ _ _ _ _ _ _ _ _ E0) as [L P].
    destruct (rounds_like C U tz dir center forwards rs (drawn g0) g0 (alike_refl g0) L) as (es & F & K & A & R & _). rewrite E in A, R, K. cbn [fst snd] in *.
    exists es, (fst (play C U tz dir center es g0)). split; [|split; [exact K|split; [|exact A]]].
    + unfold from in F. rewrite Forall_forall in *. intros e He. destruct (F e He) as [<-|Hin]; [apply forwards_ok|].
      apply in_map_iff in Hin. destruct Hin as (x & <- & Hx). unfold possible in Hp. rewrite Forall_forall in Hp. now apply Hp.
    + rewrite P, R. now destruct (play C U tz dir center es g0).
  - assert (X : s = drawn g0 /\ r = r0) by (destruct r0 as [[|]| |n]; try (now elim D); injection E as <- <-; auto). destruct X as [-> ->].
    exists [], g0. split; [constructor|]. split; [now intros ->|]. split; [exact E0|]. apply alike_refl.
Qed.

(** Whatever events come, and however many of them wait together while the GUI is busy: it ends in a state, or with
    an end of the program, to which some events lead that come one by one.  So what is proved for all events that
    come one by one holds for them. *)
Theorem C104_never_anything_new : forall C U tz Y dir center path w h rs world s r,
  possible rs -> gui_rounds C U tz dir center Y path w h rs world = (s, r) ->
  exists es g, Forall (fun e => oracles_ok (fst e)) es /\
    gui_process C U tz Y dir center path w h es world = (g, r) /\ same_gui (t_gui s) g.
Proof.
  intros C U tz Y dir center path w h rs world s r Hp E. destruct (rounds_like_process _ _ _ _ _ _ _ _ _ _ _ _ _ Hp E) as (es & g & H1 & _ & H2 & H3). eauto.
Qed.
Print Assumptions C104_never_anything_new.

Lemma terminal_running C U tz Y dir center s : on_terminal C U tz Y dir center s -> exists g, running C U tz Y dir center g /\ same_gui (t_gui s) g.
Proof.
  intros (path & w & h & rs & world & Hp & E). destruct (C104_never_anything_new _ _ _ _ _ _ _ _ _ _ _ _ _ Hp E) as (es & g & H1 & H2 & H3).
  exists g. split; [|exact H3]. exists path, w, h, es, world. auto.
Qed.

(** If no event depends on what another one would draw, they act exactly as if they came one by one.  (Missing:
    ENTER that waits behind typed text, for which it is false, see below; a size that changes twice.) *)
Theorem C104_one_by_one_partial : forall C U tz Y dir center path w h rs world,
  Forall orderly rs ->
  let x := gui_rounds C U tz dir center Y path w h rs world in
  let y := gui_process C U tz Y dir center path w h (concat (map events_of rs)) world in
  snd x = snd y /\ same_gui (t_gui (fst x)) (fst y).
Proof.
  intros C U tz Y dir center path w h rs world Ho x y. unfold x, y, gui_rounds. clear x y.
  destruct (gui_process C U tz Y dir center path w h [] world) as [g0 r0] eqn:E0.
  assert (D : r0 = Ok true \/ r0 <> Ok true) by (destruct r0 as [[|]| |n]; [now left|right|right|right]; discriminate).
  destruct D as [->|D].
  - destruct (process_play _ _ _ _ _ _ _ _ _ _ _ E0) as [L P]. rewrite P.
    destruct (rounds_orderly C U tz dir center rs (drawn g0) g0 (drawn_between g0 L) Ho) as (A & R & _). auto.
  - rewrite (process_fails _ _ _ _ _ _ _ _ _ _ _ _ E0 D). destruct r0 as [[|]| |n]; try (now elim D); (split; [reflexivity|apply alike_refl]).
Qed.
Print Assumptions C104_one_by_one_partial.

(** A password that arrives together with ENTER, as pasted text does, is not tried: ENTER tries what was on the screen
    before.  Whatever the text, all that happens is what happens without it. *)
Theorem C104_pasted_password_refuted : forall C U tz Y dir center s O1 O2 text es,
  on_terminal C U tz Y dir center s -> current (t_gui s) = VPrompt ->
  let x := turn_of C U tz dir center (Keys ((O1, Typed text) :: (O2, Press KEnter) :: es)) s in
  let y := turn_of C U tz dir center (Keys ((O2, Press KEnter) :: es)) s in
  snd x = snd y /\ same_gui (t_gui (fst x)) (t_gui (fst y)).
Proof.
  intros C U tz Y dir center s O1 O2 text es H Hc. cbv zeta. destruct (terminal_running _ _ _ _ _ _ _ H) as (g & R & A).
  assert (Hv : view_of (t_gui s) VPrompt <> None).
  { apply running_inv in R. assert (M := gi_mode _ _ _ _ _ R). unfold mode in M. rewrite <- (al_cur _ _ A), Hc in M. rewrite (al_view _ _ A). tauto. }
  destruct (typed_lost C U tz dir center O1 O2 text es s Hc Hv) as [B1 B2]. split; [exact B2|]. exact (tw_gui _ _ B1).
Qed.
Print Assumptions C104_pasted_password_refuted.

(** Secrets stay masked, too, when events wait together. *)
Theorem C104_masked_unless_revealed : forall C U tz Y dir center s,
  on_terminal C U tz Y dir center s -> current (t_gui s) <> VDetails ->
  shown (t_gui s) VDetails = None \/ shown (t_gui s) VDetails = Some [] \/
  exists i, held (session (t_gui s)) i /\ shown (t_gui s) VDetails = Some (full_text tz (masked i)).
Proof.
  intros C U tz Y dir center s H Hc. destruct (terminal_running _ _ _ _ _ _ _ H) as (g & R & A). rewrite (al_cur _ _ A) in Hc.
  assert (S : shown (t_gui s) VDetails = shown g VDetails) by (unfold shown; now rewrite (al_view _ _ A)).
  assert (S2 : session (t_gui s) = session g) by (unfold session; now rewrite (al_app _ _ A)). rewrite S, S2.
  destruct (C72_masked_unless_revealed _ _ _ _ _ _ _ R Hc) as [X|[[X _]|(i & X & _ & Z)]]; eauto.
Qed.
Print Assumptions C104_masked_unless_revealed.

Definition keys_of (es : list input) : round := Keys (map (fun i => (forwards, i)) es).
Definition demo_rounds (w : world) (rs : list round) : term * res bool :=
  gui_rounds toy_crypto latin1 utc (b "/c") (fun t _ => t) toy_yaml [] 80 24 rs w.
Definition open_after (rs : list round) : bool * vname * res bool :=
  let p := demo_rounds (vault_world (b "/v") []) rs in (is_unlocked (session (t_gui (fst p))), current (t_gui (fst p)), snd p).
(** Typed and then confirmed, the password opens the vault; pasted with ENTER it is refused as an empty one is. *)
Example C104_example :
  open_after [keys_of [Typed (b "freddy")]; keys_of [Press KEnter; Press KDown]] = (true, VMenu, Ok true) /\
  open_after [keys_of [Typed (b "freddy"); Press KEnter]] = (false, VError, Ok true) /\
  open_after [keys_of [Press KEnter]] = (false, VError, Ok true) /\
  (let g := demo_gui (vault_world (b "/v") []) [Typed (b "freddy"); Press KEnter] in is_unlocked (session (fst g)) = true) /\
  Forall orderly [keys_of [Typed (b "freddy")]; keys_of [Press KEnter; Press KDown; Resize 100 40]; Beside forwards Checked] /\
  possible [keys_of [Typed (b "freddy"); Press KEnter]] /\ current (t_gui (fst (demo_rounds (vault_world (b "/v") []) []))) = VPrompt.
Proof.
  split; [vm_compute; reflexivity|]. split; [vm_compute; reflexivity|]. split; [vm_compute; reflexivity|]. split; [vm_compute; reflexivity|]. split.
  - repeat constructor. cbn. tauto.
  - split; [repeat first [apply Forall_nil|apply Forall_cons]; exact forwards_ok|vm_compute; reflexivity].
Qed.

(** ** C105 *)

Lemma rounds_process C U tz dir center Y path w h rs r world s : gui_rounds C U tz dir center Y path w h (rs ++ [r]) world = (s, Ok true) ->
  exists s0, gui_rounds C U tz dir center Y path w h rs world = (s0, Ok true) /\ turn_of C U tz dir center r s0 = (s, Ok true).
Proof.
  unfold gui_rounds. destruct (gui_process C U tz Y dir center path w h [] world) as [g0 [[|]| |n]]; try discriminate. rewrite rounds_app.
  destruct (rounds C U tz dir center rs (drawn g0)) as [s0 [[|]| |n]]; try discriminate. cbn [rounds].
  intros E. exists s0. split; [reflexivity|]. destruct (turn_of C U tz dir center r s0) as [s1 [[|]| |n]]; try discriminate E. exact E.
Qed.

(** After any events the terminal shows what the GUI holds. *)
Theorem C105_up_to_date : forall C U tz Y dir center path w h rs es world s,
  gui_rounds C U tz dir center Y path w h (rs ++ [Keys es]) world = (s, Ok true) ->
  forall n, t_screen s n = shown (t_gui s) n.
Proof.
  intros C U tz Y dir center path w h rs es world s E. destruct (rounds_process _ _ _ _ _ _ _ _ _ _ _ _ _ E) as (s0 & _ & E2).
  exact (events_drawn C U tz dir center es s0 s E2).
Qed.
Print Assumptions C105_up_to_date.

(** At every moment the terminal shows a state of the GUI that some events, one by one, lead to; never a mixture. *)
Theorem C105_one_state : forall C U tz Y dir center s,
  on_terminal C U tz Y dir center s -> exists g, running C U tz Y dir center g /\ forall n, t_screen s n = shown g n.
Proof.
  intros C U tz Y dir center s (path & w & h & rs & world & Hp & E). revert s Hp E. induction rs as [|r rs IH] using rev_ind; intros s Hp E.
  - unfold gui_rounds in E. destruct (gui_process C U tz Y dir center path w h [] world) as [g0 [[|]| |n]] eqn:E0; try discriminate E. injection E as <-.
    exists g0. split; [|reflexivity]. exists path, w, h, [], world. split; [constructor|exact E0].
  - destruct (rounds_process _ _ _ _ _ _ _ _ _ _ _ _ _ E) as (s0 & E1 & E2). destruct r as [es|Or i].
    + destruct (terminal_running C U tz Y dir center s) as (g & R & A); [exists path, w, h, (rs ++ [Keys es]), world; auto|].
      exists g. split; [exact R|]. intros n. rewrite (C105_up_to_date _ _ _ _ _ _ _ _ _ _ _ _ _ E). unfold shown. now rewrite (al_view _ _ A).
    + destruct (IH s0) as (g & R & S); [|exact E1|].
      { unfold possible in *. rewrite map_app, concat_app, Forall_app in Hp. apply Hp. }
      exists g. split; [exact R|]. intros n. rewrite <- S. assert (B := beside_screen C U tz dir center Or i s0). rewrite E2 in B. cbn [fst] in B. now rewrite B.
Qed.
Print Assumptions C105_one_state.

(** The verdict of the check for updates does not appear when it is there: the terminal shows what it showed before. *)
Theorem C105_verdict_waits_refuted : forall C U tz Y dir center path w h rs ks world s s',
  Forall (fun r => match r with Beside _ _ => True | Keys _ => False end) ks ->
  gui_rounds C U tz dir center Y path w h rs world = (s, Ok true) ->
  gui_rounds C U tz dir center Y path w h (rs ++ ks) world = (s', Ok true) ->
  forall n, t_screen s' n = t_screen s n.
Proof.
  intros C U tz Y dir center path w h rs ks world s s' Hk E E' n. revert s' E'. induction ks as [|k ks IH] using rev_ind; intros s' E'.
  - rewrite app_nil_r, E in E'. congruence.
  - apply Forall_app in Hk. destruct Hk as [Hk Hk1]. rewrite app_assoc in E'. destruct (rounds_process _ _ _ _ _ _ _ _ _ _ _ _ _ E') as (s0 & E1 & E2).
    rewrite <- (IH Hk s0 E1). inversion Hk1 as [|x l X Y0]; subst. destruct k as [es|Or i]; [destruct X|].
    assert (B := beside_screen C U tz dir center Or i s0). rewrite E2 in B. cbn [fst] in B. now rewrite B.
Qed.
Print Assumptions C105_verdict_waits_refuted.

(** It appears with the next event, whichever it is: a key, a new size. *)
Theorem C105_verdict_appears : forall C U tz Y dir center path w h rs es world s m,
  load_config Y (w_disk world) dir = Ok m -> is_available m = true -> possible (rs ++ [Keys es]) ->
  gui_rounds C U tz dir center Y path w h (rs ++ [Keys es]) world = (s, Ok true) ->
  (exists Or, In (Beside Or Checked) rs) ->
  let top message := t_screen s VVersion = Some (b "1Pass v1.3.1 " ++ message) in
  (forall body o, answer world 0 body -> offers body o -> newer (of_version o) ->
     top (b "(new version is available: v" ++ of_version o ++ b " - run '1pass update' to upgrade)")) /\
  (forall body, answer world 0 body -> (no_release body \/ exists o, offers body o /\ ~ newer (of_version o)) -> top (b "(up to date)")) /\
  ((forall body, answer world 0 body -> ~ no_release body /\ ~ exists o, offers body o) ->
     top (b "(update check failed - run '1pass update' for more info)")).
Proof.
  intros C U tz Y dir center path w h rs es world s m Hm Ha Hp E (Or & Hin). cbv zeta.
  destruct (rounds_like_process _ _ _ _ _ _ _ _ _ _ _ _ _ Hp E) as (es' & g & H1 & K & H2 & A). specialize (K eq_refl).
  assert (Hc : In Checked (map snd es')).
  { assert (X : checks (concat (map events_of (rs ++ [Keys es]))) = true).
    { unfold checks. apply existsb_exists. exists (Or, Checked). split; [|reflexivity]. apply in_concat. exists [(Or, Checked)]. split; [|now left].
      apply in_map_iff. exists (Beside Or Checked). split; [reflexivity|]. apply in_or_app. now left. }
    rewrite <- K in X. unfold checks in X. apply existsb_exists in X. destruct X as ([o i] & X1 & X2). apply in_map_iff. exists (o, i). split; [|exact X1]. destruct i; try discriminate X2. reflexivity. }
  assert (T := proj2 (C101_top_line _ _ _ _ _ _ _ _ _ _ _ _ _ Hm Ha H2) Hc).
  rewrite (C105_up_to_date _ _ _ _ _ _ _ _ _ _ _ _ _ E). unfold top_line in T. replace (shown (t_gui s) VVersion) with (shown g VVersion) by (unfold shown; now rewrite (al_view _ _ A)). exact T.
Qed.
Print Assumptions C105_verdict_appears.

Definition first_line (rs : list round) : option bytes * option bytes * res bool :=
  let p := demo_rounds (top_world [NetBody (release (b "1.4.0")) true]) rs in (t_screen (fst p) VVersion, shown (t_gui (fst p)) VVersion, snd p).
(** The view holds the verdict, the terminal shows it after the next key. *)
Example C105_example :
  first_line [Beside forwards Checked] =
    (Some (b "1Pass v1.3.1 "), Some (b "1Pass v1.3.1 (new version is available: v1.4.0 - run '1pass update' to upgrade)"), Ok true) /\
  first_line [Beside forwards Checked; keys_of [Press KTab]] =
    (Some (b "1Pass v1.3.1 (new version is available: v1.4.0 - run '1pass update' to upgrade)"),
     Some (b "1Pass v1.3.1 (new version is available: v1.4.0 - run '1pass update' to upgrade)"), Ok true) /\
  possible [Beside forwards Checked; keys_of [Press KTab]].
Proof. split; [vm_compute; reflexivity|]. split; [vm_compute; reflexivity|]. repeat first [apply Forall_nil|apply Forall_cons]; exact forwards_ok. Qed.
