(** Where the cursors and origins of the views are, and what the help line says. *)
From Verif Require Import Base Utf8 GoStrings Json Civil Crypto Path Fs Domain Repos Session SessionProof World Config Updater Cli Spec_Domain
  Gui Spec_Gui GuiProof GuiRun.

(** ** Code that leaves something alone *)

Definition holds {X A} (f : gui -> X) (m : gact A) : Prop := forall g, f (fst (m g)) = f g.

Section Holds.
Context {X : Type}.
Variable f : gui -> X.
Lemma holds_ret {A} (x : A) : holds f (ret x).
Proof. intros g. reflexivity. Qed.
Lemma holds_lift {A} (x : res A) : holds f (lift x).
Proof. intros g. reflexivity. Qed.
Lemma holds_get {A} (h : gui -> A) : holds f (get h).
Proof. intros g. reflexivity. Qed.
Lemma holds_bind {A B} (m : gact A) (k : A -> gact B) : holds f m -> (forall x, holds f (k x)) -> holds f (bind m k).
Proof.
  intros Hm Hk g. unfold bind. specialize (Hm g). destruct (m g) as [g1 [x| |n]]; cbn [fst] in *; [|exact Hm|exact Hm].
  rewrite (Hk x g1). exact Hm.
Qed.
Lemma holds_check (m k : gact bool) : holds f m -> holds f k -> holds f (check m k).
Proof. intros Hm Hk. apply holds_bind; [exact Hm|]. intros [|]; [exact Hk|apply holds_ret]. Qed.
Lemma holds_put h : (forall g, f (h g) = f g) -> holds f (put h).
Proof. intros H g. apply H. Qed.
Lemma holds_on_app {A} (m : act A) : (forall a g, f (set_app a g) = f g) -> holds f (on_app m).
Proof. intros H g. unfold on_app. destruct (m (g_app g)) as [a r]. apply H. Qed.
Lemma holds_on_view n h : (forall v g, f (set_ui (put_view n (Some v) (g_ui g)) g) = f g) -> holds f (on_view n h).
Proof. intros H g. unfold on_view. destruct (ui_views (g_ui g) n); [apply H|reflexivity]. Qed.
Lemma holds_try_view n h : (forall v g, f (set_ui (put_view n (Some v) (g_ui g)) g) = f g) -> holds f (try_view n h).
Proof. intros H g. unfold try_view. destruct (ui_views (g_ui g) n); [destruct (h v); [apply H|reflexivity]|reflexivity]. Qed.
Lemma holds_set_view n x0 y0 x1 y1 : (forall v g, f (set_ui (put_view n (Some v) (g_ui g)) g) = f g) -> holds f (set_view n x0 y0 x1 y1).
Proof. intros H g. unfold set_view. destruct (_ || _)%bool; [reflexivity|]. destruct (ui_views (g_ui g) n); apply H. Qed.
Lemma holds_delete n : (forall g, f (set_ui (put_view n None (g_ui g)) g) = f g) -> holds f (delete_view n).
Proof. intros H g. unfold delete_view. destruct (ui_views (g_ui g) n); [apply H|reflexivity]. Qed.
Lemma holds_current n : (forall g, f (set_ui (MkUi (ui_w (g_ui g)) (ui_h (g_ui g)) (ui_views (g_ui g)) n) g) = f g) -> holds f (set_current n).
Proof. intros H g. unfold set_current. destruct (ui_views (g_ui g) n); [apply H|reflexivity]. Qed.
End Holds.

Ltac held := repeat lazymatch goal with
  | |- holds _ (match ?x with _ => _ end) => destruct x
  | |- _ (match ?x with _ => _ end) = _ => destruct x; try reflexivity
  | |- holds _ (ret _) => apply holds_ret
  | |- holds _ (lift _) => apply holds_lift
  | |- holds _ (get _) => apply holds_get
  | |- holds _ (on_app _) => apply holds_on_app; reflexivity
  | |- holds _ (on_view _ _) => apply holds_on_view; reflexivity
  | |- holds _ (try_view _ _) => apply holds_try_view; reflexivity
  | |- holds _ (set_view _ _ _ _ _) => apply holds_set_view; reflexivity
  | |- holds _ (delete_view _) => apply holds_delete; reflexivity
  | |- holds _ (set_current _) => apply holds_current; reflexivity
  | |- holds _ (check _ _) => apply holds_check
  | |- holds _ (bind _ _) => apply holds_bind; [|intros ?]
  | |- holds _ (put _) => apply holds_put; intros ?; try reflexivity
  | |- holds _ (let _ := _ in _) => cbv zeta
  end.

Lemma check_inv (m k : gact bool) g g' : check m k g = (g', Ok true) -> exists g1, m g = (g1, Ok true) /\ k g1 = (g', Ok true).
Proof. unfold check, bind, ret. destruct (m g) as [g1 [[|]| |n]]; try discriminate. eauto. Qed.
Lemma bind_inv {A B} (m : gact A) (k : A -> gact B) g g' x : bind m k g = (g', Ok x) -> exists g1 y, m g = (g1, Ok y) /\ k y g1 = (g', Ok x).
Proof. unfold bind. destruct (m g) as [g1 [y| |n]]; try discriminate. eauto. Qed.
Lemma held_in {X A} (f : gui -> X) (m : gact A) g g' r : holds f m -> m g = (g', r) -> f g' = f g.
Proof. intros H E. specialize (H g). rewrite E in H. exact H. Qed.
Lemma try_inv n f g g' : try_view n f g = (g', Ok true) -> exists v v', view_of g n = Some v /\ f v = Some v' /\ g' = sv n v' g.
Proof.
  unfold try_view. fold (view_of g n). destruct (view_of g n) as [v|] eqn:E; [|discriminate]. destruct (f v) as [v'|] eqn:Ef; [|discriminate].
  intros H. exists v, v'. repeat split; auto. unfold sv. congruence.
Qed.

(** ** The item list *)

(** The highlighted line of a list is line [i], and it is on the screen. *)
Definition marks (v : view) (i : Z) : Prop :=
  (v_cx v = 0 /\ 0 <= v_oy v /\ v_oy v + v_cy v = Z.max 0 i /\ (v_cy v = 0 \/ 0 < v_w v /\ 0 <= v_cy v < v_h v))%Z.

Definition list_of (g : gui) := (view_of g VItems, g_row_idx g).
Definition list_marks (g : gui) : Prop := forall v, view_of g VItems = Some v -> marks v (g_row_idx g).

Lemma list_marks_of g g' : list_of g' = list_of g -> list_marks g -> list_marks g'.
Proof. intros E H v Hv. assert (E1 : view_of g' VItems = view_of g VItems /\ g_row_idx g' = g_row_idx g) by (unfold list_of in E; split; congruence).
  destruct E1 as [E1 E2]. rewrite E2. apply H. congruence. Qed.

Ltac bools := repeat match goal with
  | H : (_ || _)%bool = true |- _ => apply Bool.orb_true_iff in H
  | H : (_ || _)%bool = false |- _ => apply Bool.orb_false_iff in H; destruct H
  | H : (_ <? _)%Z = true |- _ => apply Z.ltb_lt in H
  | H : (_ <? _)%Z = false |- _ => apply Z.ltb_ge in H
  | H : (_ <=? _)%Z = true |- _ => apply Z.leb_le in H
  | H : (_ <=? _)%Z = false |- _ => apply Z.leb_gt in H
  end.

Lemma marks_down v v' i : (0 <= i)%Z -> marks v i -> line_down v = Some v' -> marks v' (i + 1).
Proof.
  intros Hi (H1 & H2 & H3 & H4). unfold line_down, set_cursor, set_origin.
  repeat match goal with |- context [if ?x then _ else _] => destruct x eqn:?; cbv iota end; intros E; try discriminate E; injection E as <-; unfold marks; cbn [v_cx v_cy v_ox v_oy v_w v_h]; bools.
  - repeat split; try lia.
  - repeat split; try lia.
Qed.
Lemma marks_up v v' i : (0 < i)%Z -> marks v i -> line_up v = Some v' -> marks v' (i - 1).
Proof.
  intros Hi (H1 & H2 & H3 & H4). unfold line_up, set_cursor, set_origin.
  repeat match goal with |- context [if ?x then _ else _] => destruct x eqn:?; cbv iota end; intros E; try discriminate E; injection E as <-; unfold marks; cbn [v_cx v_cy v_ox v_oy v_w v_h]; bools.
  - repeat split; try lia.
  - exfalso. rewrite H1 in *. intuition lia.
  - repeat split; try lia.
Qed.

Definition at_start (v : view) : Prop := (v_cx v = 0 /\ v_cy v = 0 /\ v_ox v = 0 /\ v_oy v = 0)%Z.
Lemma reset_start v v' : at_start v -> reset_cursor v = Some v' -> at_start v'.
Proof.
  intros (H1 & H2 & H3 & H4). unfold reset_cursor, set_cursor, set_origin. rewrite H4.
  change (0 <? 0)%Z with false. repeat match goal with |- context [if ?x then _ else _] => destruct x eqn:?; cbv iota end; intros E; injection E as <-; repeat split; auto.
Qed.

Lemma holds_help {X} (f : gui -> X) h : (forall x g, f (set_help x g) = f g) -> (forall v g, f (set_ui (put_view VHelp (Some v) (g_ui g)) g) = f g) -> holds f (show_help h).
Proof. intros H1 H2. unfold show_help, help_update. apply holds_bind; [apply holds_put; auto|]. intros _. apply holds_bind; [apply holds_get|]. intros ?. now apply holds_on_view. Qed.

Section Cursor.
Variable C : crypto.
Variable U : unicode.
Variable tz : Z -> Z.
Variable dir : bytes.
Variable center : bytes -> Z -> bytes.

Lemma list_pick : holds list_of pick_item.
Proof. unfold pick_item. held. Qed.
Lemma list_details m : holds list_of (details_update tz m).
Proof. unfold details_update. held. Qed.
Lemma list_overview : holds list_of (show_overview tz).
Proof. unfold show_overview. apply holds_bind; [apply list_pick|]. intros _. apply list_details. Qed.
Lemma list_help h : holds list_of (show_help h).
Proof. now apply holds_help. Qed.
Lemma list_menu_update : holds list_of (menu_update center).
Proof. unfold menu_update, prompt_layout. held. Qed.
Lemma list_menu_lock : holds list_of (menu_lock center).
Proof. unfold menu_lock. held; first [apply list_menu_update|apply list_help]. Qed.

Definition fresh (g : gui) : Prop := match view_of g VItems with Some v => at_start v | None => True end.
Lemma fresh_update g g' r : fresh g -> items_update tz g = (g', r) -> fresh g' /\ list_marks g' /\ (r = Ok true \/ r = Ok false \/ True).
Proof.
  intros H. unfold items_update, bind at 1, get at 1. fold (view_of g VItems). unfold fresh in H.
  destruct (view_of g VItems) as [v|] eqn:Ev.
  2: { unfold ret. intros E. assert (g' = g) as -> by congruence. split; [unfold fresh; now rewrite Ev|]. split; [intros v Hv; congruence|auto]. }
  set (start := fun g : gui => exists v, view_of g VItems = Some v /\ at_start v /\ (g_row_idx g = -1 \/ g_row_idx g = 0)%Z).
  assert (S : forall g, start g -> fresh g /\ list_marks g).
  { intros g1 (v1 & E1 & (A1 & A2 & A3 & A4) & A5). split; [unfold fresh; rewrite E1; repeat split; auto|]. intros v2 E2. assert (v2 = v1) as -> by congruence.
    unfold marks. lia. }
  assert (G : forall g1 g2, start g1 -> list_of g2 = list_of g1 -> start g2).
  { intros g1 g2 (v1 & E1 & A1 & A2) E. exists v1. unfold list_of in E. split; [congruence|]. split; [exact A1|].
    assert (g_row_idx g2 = g_row_idx g1) as -> by congruence. exact A2. }
  intros E. enough (start g') as Hg by (destruct (S g' Hg); auto). revert E.
  unfold bind at 1, put at 1. set (g1 := set_row_idx (-1) g). assert (S1 : start g1) by (exists v; split; [exact Ev|]; split; [exact H|now left]).
  unfold check at 1, bind at 1. destruct (try_view VItems reset_cursor g1) as [g2 r2] eqn:E2.
  assert (S2 : start g2).
  { unfold try_view in E2. destruct S1 as (v1 & F1 & F2 & F3). unfold view_of in F1. rewrite F1 in E2.
    destruct (reset_cursor v1) as [v2|] eqn:Ez; [|assert (g2 = g1) as -> by congruence; exists v1; auto].
    assert (g2 = sv VItems v2 g1) as -> by (unfold sv; congruence). exists v2. split; [reflexivity|]. split; [exact (reset_start v1 v2 F2 Ez)|exact F3]. }
  destruct r2 as [[|]| |n]; [|intros E; assert (g' = g2) as -> by (unfold ret in E; congruence); exact S2|intros E; assert (g' = g2) as -> by congruence; exact S2|intros E; assert (g' = g2) as -> by congruence; exact S2].
  clear E2 S1 g1 H Ev v. unfold check at 1, bind at 1, on_view at 1.
  destruct S2 as (v2 & F1 & F2 & F3). unfold view_of in F1. rewrite F1. set (g3 := set_ui _ g2).
  assert (S3 : start g3) by (exists (clear v2); split; [reflexivity|]; split; [exact F2|exact F3]).
  unfold bind at 1, get at 1. destruct (g_rows g3) as [|row rows]; [intros E; assert (g' = g3) as -> by (unfold ret in E; congruence); exact S3|].
  unfold check at 1, bind at 1, on_view at 1. destruct S3 as (v3 & G1 & G2 & G3). unfold view_of in G1. rewrite G1. set (g4 := set_ui _ g3).
  unfold bind at 1, put at 1. set (g5 := set_row_idx 0 g4).
  assert (S5 : start g5) by (eexists; split; [reflexivity|]; split; [exact G2|now right]).
  intros E. apply (G g5 g' S5). assert (L := list_overview g5). now rewrite E in L.
Qed.

Lemma list_open_entry O g g' r : view_of g VItems = None -> open_entry U tz O g = (g', r) -> list_marks g'.
Proof.
  intros H. unfold open_entry, bind at 1, get at 1. assert (N : list_marks g) by (intros v Hv; congruence).
  destruct (g_menu_idx g =? -1)%Z; [intros E; assert (g' = g) as -> by (unfold ret in E; congruence); exact N|].
  unfold check at 1, bind at 1. destruct (items_layout tz g) as [g1 r1] eqn:E1.
  assert (S1 : fresh g1 /\ list_marks g1).
  { revert E1. unfold items_layout, bind at 1, get at 1. unfold bind at 1. destruct (set_view VItems 1 4 _ _ g) as [g2 r2] eqn:E2. unfold set_view in E2.
    destruct (_ || _)%bool.
    { assert (g2 = g /\ r2 = Ok Bad) as [-> ->] by (split; congruence). unfold ret. intros E. assert (g1 = g) as -> by congruence. split; [unfold fresh; now rewrite H|exact N]. }
    unfold view_of in H. rewrite H in E2. assert (F2 : fresh g2 /\ r2 = Ok New).
    { split; [|congruence]. match type of E2 with (?a, _) = _ => assert (g2 = a) as -> by congruence end. unfold fresh. cbn. repeat split. }
    destruct F2 as [F2 ->]. unfold bind at 1. destruct (items_update tz g2) as [g3 r3] eqn:E3. destruct (fresh_update g2 g3 r3 F2 E3) as (F3 & M3 & _).
    destruct r3 as [x| |n]; [|intros E; assert (g1 = g3) as -> by congruence; auto|intros E; assert (g1 = g3) as -> by congruence; auto].
    assert (L : holds list_of (details_layout ;;? set_current VItems ;;? show_help items_help)) by (unfold details_layout; held; apply list_help).
    intros E. specialize (L g3). rewrite E in L. cbn [fst] in L. split; [|exact (list_marks_of _ _ L M3)].
    unfold fresh in *. unfold list_of in L. assert (view_of g1 VItems = view_of g3 VItems) as -> by congruence. exact F3. }
  destruct S1 as [F1 M1]. destruct r1 as [[|]| |n]; [|intros E; assert (g' = g1) as -> by (unfold ret in E; congruence); exact M1|intros E; assert (g' = g1) as -> by congruence; exact M1|intros E; assert (g' = g1) as -> by congruence; exact M1].
  unfold bind, get, put. intros E. match type of E with items_update tz ?a = _ => destruct (fresh_update a g' r) as (_ & M & _); [exact F1|exact E|exact M] end.
Qed.

Lemma list_key O n k g g' : ginv C U tz center g -> current g = n -> list_marks g -> on_key C U tz O center n k g = (g', Ok true) -> list_marks g'.
Proof.
  intros G Hc M E.
  assert (K : holds list_of (on_key C U tz O center n k) -> list_marks g') by (intros L; specialize (L g); rewrite E in L; exact (list_marks_of _ _ L M)).
  assert (B : forall g g', list_marks g -> go_back g = (g', Ok true) -> view_of g' VItems = None).
  { clear. intros g g' M E. unfold go_back in E. apply check_inv in E. destruct E as (g1 & E1 & E). apply check_inv in E. destruct E as (g2 & E2 & E).
    unfold set_current in E. destruct (ui_views (g_ui g2) VMenu); [|discriminate]. assert (g' = scur VMenu g2) as -> by (unfold scur; congruence).
    change (view_of g2 VItems = None). unfold delete_view in E2. destruct (ui_views (g_ui g1) VItems); [|discriminate].
    assert (g2 = dv VItems g1) as -> by (unfold dv; congruence). reflexivity. }
  assert (L : forall g g', list_marks g -> items_lock center g = (g', Ok true) -> list_marks g').
  { intros h h' Mh Eh. unfold items_lock in Eh. apply check_inv in Eh. destruct Eh as (h1 & E1 & E2). apply B in E1; [|exact Mh].
    assert (X := list_menu_lock h1). rewrite E2 in X. cbn [fst] in X. intros v Hv. unfold list_of in X. congruence. }
  assert (R : forall f i, (forall v v', marks v (g_row_idx g) -> f v = Some v' -> marks v' i) ->
    (try_view VItems f ;;? put (set_row_idx i) ;;; show_overview tz)%st g = (g', Ok true) -> list_marks g').
  { intros f i Hf Ef. apply check_inv in Ef. destruct Ef as (g1 & E1 & E2). apply try_inv in E1. destruct E1 as (v & v' & V1 & V2 & ->).
    unfold bind at 1, put at 1 in E2. assert (X := list_overview (set_row_idx i (sv VItems v' g))). rewrite E2 in X. cbn [fst] in X.
    apply (list_marks_of _ _ X). intros w Hw. cbn [set_row_idx sv g_row_idx]. assert (w = v') as -> by (change (Some v' = Some w) in Hw; congruence).
    apply (Hf v); [now apply M|exact V2]. }
  destruct n, k; cbn [on_key] in *; try (apply K; apply holds_ret); try (apply K; held; fail).
  - apply K. unfold menu_up. held.
  - apply K. unfold menu_down. held.
  - assert (X := gi_mode _ _ _ _ _ G). unfold mode in X. rewrite Hc in X. destruct X as (_ & [X _] & _). exact (list_open_entry O g g' _ X E).
  - assert (X := gi_mode _ _ _ _ _ G). unfold mode in X. rewrite Hc in X. destruct X as (_ & [X _] & _). exact (list_open_entry O g g' _ X E).
  - apply K, list_menu_lock.
  - unfold row_up, bind at 1, get at 1 in E. destruct (0 <? g_row_idx g)%Z eqn:Ei; [|unfold ret in E; assert (g' = g) as -> by congruence; exact M].
    apply (R line_up (g_row_idx g - 1)%Z); [|exact E]. intros v v'. apply marks_up. bools. exact Ei.
  - unfold row_down, bind at 1, get at 1, bind at 1, get at 1 in E. match type of E with (if ?x then _ else _) _ = _ => destruct x eqn:Ei end; [|unfold ret in E; assert (g' = g) as -> by congruence; exact M].
    apply (R line_down (g_row_idx g + 1)%Z); [|exact E]. intros v v'. apply marks_down. apply Bool.andb_true_iff in Ei. destruct Ei as [Ei1 Ei2]. apply Bool.negb_true_iff, Z.eqb_neq in Ei1.
    assert (X := gi_mode _ _ _ _ _ G). unfold mode in X. rewrite Hc in X. destruct X as (_ & (_ & _ & X & _) & _). destruct X as [[_ X]|X]; lia.
  - intros v Hv. apply B in E; [|exact M]. congruence.
  - apply K. unfold reveal. held; first [apply list_pick|apply list_details|apply list_help].
  - intros v Hv. apply B in E; [|exact M]. congruence.
  - exact (L g g' M E).
  - apply K. unfold cover. held; first [apply list_details|apply list_help].
  - exact (L g g' M E).
  - apply K. unfold enter_password, error_layout. held; apply list_menu_update.
  - apply K. unfold close_error. held; apply list_menu_update.
Qed.

(** ** Invariants of runs *)

Lemma also_run (K : gui -> Prop) (fine : input -> Prop) Y path w h es world g :
  (forall a v g, reachable C U tz (a_vault a) -> is_unlocked (a_vault a) = false -> layout center (blank_gui a v w h) = (g, Ok true) -> K g) ->
  (forall O i g g1, oracles_ok O -> fine i -> i <> Press KQuit -> ginv C U tz center g -> K g -> handle C U tz O dir center i g = (g1, Ok true) -> ginv C U tz center g1 -> K g1) ->
  (forall g g', ginv C U tz center g -> K g -> layout center g = (g', Ok true) -> K g') ->
  Forall (fun e => oracles_ok (fst e) /\ fine (snd e)) es ->
  gui_process C U tz Y dir center path w h es world = (g, Ok true) -> K g.
Proof.
  intros K0 K1 K2 Hes H. unfold gui_process in H.
  destruct (load_config Y (w_disk world) dir) as [m| |n]; [|congruence|congruence].
  assert (Hf := apart_first_run U Y dir (MkApp world m init)).
  destruct (first_run U Y dir (MkApp world m init)) as [a [x| |n]]; cbn [fst a_vault] in Hf; [|congruence|congruence].
  destruct (start_gui center path w h a) as [g0 [y| |n]] eqn:Es; [|congruence|congruence].
  assert (y = true) as -> by exact (start_answer C U tz dir center path w h a g0 y Es).
  assert (G0 : ginv C U tz center g0).
  { destruct (start_inv C U tz dir center path w h a g0) as [G0 _]; [rewrite Hf; exact (init_reachable C U tz)|rewrite Hf; reflexivity|exact Es|exact G0]. }
  assert (KS : K g0).
  { unfold start_gui in Es. destruct (pick_vault path a) as [a' [v| |n]] eqn:Ep; [|congruence|congruence].
    destruct (pick_vault_session C U tz dir center _ _ _ _ Ep) as [Hr' Hl']; [rewrite Hf; exact (init_reachable C U tz)|rewrite Hf; reflexivity|]. apply (K0 a' v); [exact Hr'|exact Hl'|].
    unfold bind in Es. destruct (layout center (blank_gui a' v w h)) as [g1 [[|]| |n]]; unfold ret, os_exit, lift in Es; congruence. }
  clear Es Hf. revert g0 G0 KS H. induction es as [|[O i] es IH]; intros g0 G0 KS H; [cbn [play] in H; unfold ret in H; congruence|].
  apply Forall_cons_iff in Hes. destruct Hes as [[HO Hi] Hes]. cbn [fst snd] in HO, Hi. cbn [play] in H. unfold bind in H.
  assert (S := step_run C U tz dir center O i g0 HO G0).
  destruct (gui_step C U tz O dir center i g0) as [g1 [[|]| |n]] eqn:E1; [|unfold ret in H; congruence|congruence|congruence].
  destruct S as (G1 & g2 & E2 & G2 & _). refine (IH Hes g1 G1 _ H).
  assert (Hq : i <> Press KQuit) by (intros ->; unfold gui_step, ret in E1; congruence).
  assert (Q : gui_step C U tz O dir center i g0 = (ok <- (handle C U tz O dir center i ;;? layout center) ;; if ok then ret true else os_exit 1)%st g0).
  { destruct i as [[]| | | |]; congruence || reflexivity. }
  rewrite Q in E1. unfold check, bind in E1. rewrite E2 in E1. destruct (layout center g2) as [g3 [[|]| |n]] eqn:E3; unfold ret, os_exit, lift in E1; try congruence.
  assert (g3 = g1) as -> by congruence. apply (K2 g2); auto. apply (K1 O i g0); auto.
Qed.

Lemma list_running Y g : running C U tz Y dir center g -> list_marks g.
Proof.
  intros (path & w & h & es & world & Hes & H).
  assert (L : holds list_of (layout center)).
  { unfold layout, version_layout, help_layout, menu_layout, help_update. held; first [apply list_menu_update|apply list_help]. }
  apply (also_run list_marks (fun _ => True) Y path w h es world g).
  - intros a v g1 _ _ E. specialize (L (blank_gui a v w h)). rewrite E in L. cbn [fst] in L. intros x Hx. unfold list_of in L. assert (view_of g1 VItems = None) by (cbn in L; congruence). congruence.
  - intros O i g0 g1 HO _ _ G M E _. destruct i as [k|t|w0 h0| |d].
    + exact (list_key O _ k g0 g1 G eq_refl M E).
    + assert (X : holds list_of (handle C U tz O dir center (Typed t))) by (unfold handle; held). exact (list_marks_of _ _ (held_in _ _ _ _ _ X E) M).
    + unfold handle, bind, put, ret in E. assert (X : list_of g1 = list_of g0) by (injection E as <-; reflexivity). exact (list_marks_of _ _ X M).
    + assert (X : holds list_of (handle C U tz O dir center Checked)) by (unfold handle, version_update; held). exact (list_marks_of _ _ (held_in _ _ _ _ _ X E) M).
    + unfold handle, bind, put, ret in E. assert (X : list_of g1 = list_of g0) by (injection E as <-; reflexivity). exact (list_marks_of _ _ X M).
  - intros g0 g1 G M E. exact (list_marks_of _ _ (held_in _ _ _ _ _ L E) M).
  - eapply Forall_impl; [|exact Hes]. auto.
  - exact H.
Qed.

(** ** The menu, in a terminal that keeps its size *)

Definition menu_of (g : gui) := (ui_w (g_ui g), ui_h (g_ui g), view_of g VMenu, g_menu_idx g).
Definition menu_marks (w h : Z) (g : gui) : Prop :=
  ui_w (g_ui g) = w /\ ui_h (g_ui g) = h /\
  forall v, view_of g VMenu = Some v -> (v_w v = w - 2 /\ v_h v = h - 8 /\ v_cx v = 0 /\ v_oy v = 0 /\ v_cy v = Z.max 0 (g_menu_idx g) /\ v_ox v = 0)%Z.

Definition saves (P : gui -> Prop) {A} (m : gact A) : Prop := forall g, P g -> P (fst (m g)).
Lemma saves_ret (P : gui -> Prop) {A} (x : A) : saves P (ret x).
Proof. intros g H. exact H. Qed.
Lemma saves_bind (P : gui -> Prop) {A B} (m : gact A) (k : A -> gact B) : saves P m -> (forall x, saves P (k x)) -> saves P (bind m k).
Proof. intros Hm Hk g H. unfold bind. specialize (Hm g H). destruct (m g) as [g1 [x| |n]]; cbn [fst] in *; auto. now apply Hk. Qed.
Lemma saves_check (P : gui -> Prop) (m k : gact bool) : saves P m -> saves P k -> saves P (check m k).
Proof. intros Hm Hk. apply saves_bind; [exact Hm|]. intros [|]; [exact Hk|apply saves_ret]. Qed.
Lemma saves_put (P : gui -> Prop) f : (forall g, P g -> P (f g)) -> saves P (put f).
Proof. intros H g Hg. now apply H. Qed.
Lemma saves_in (P : gui -> Prop) {A} (m : gact A) g g' r : saves P m -> m g = (g', r) -> P g -> P g'.
Proof. intros H E Hg. specialize (H g Hg). now rewrite E in H. Qed.

Lemma menu_marks_of w h g g' : menu_of g' = menu_of g -> menu_marks w h g -> menu_marks w h g'.
Proof.
  intros E (H1 & H2 & H3). unfold menu_of in E.
  assert (E' : ui_w (g_ui g') = ui_w (g_ui g) /\ ui_h (g_ui g') = ui_h (g_ui g) /\ view_of g' VMenu = view_of g VMenu /\ g_menu_idx g' = g_menu_idx g) by (repeat split; congruence).
  destruct E' as (E1 & E2 & E3 & E4). unfold menu_marks. rewrite E1, E2, E3, E4. auto.
Qed.

Definition low (w h : Z) (g : gui) : Prop := menu_marks w h g /\ (g_menu_idx g <= 0)%Z.
Lemma saves_low w h {A} (m : gact A) : holds menu_of m -> saves (low w h) m.
Proof.
  intros H g [M L]. specialize (H g). split; [exact (menu_marks_of _ _ _ _ H M)|]. unfold menu_of in H.
  assert (g_menu_idx (fst (m g)) = g_menu_idx g) as -> by congruence. exact L.
Qed.
Lemma saves_write w h t : saves (low w h) (on_view VMenu (write t)).
Proof.
  intros g [(M1 & M2 & M3) L]. unfold on_view. destruct (ui_views (g_ui g) VMenu) as [v|] eqn:Ev; [|split; [repeat split; auto; apply M3; auto|exact L]].
  split; [|exact L]. split; [exact M1|]. split; [exact M2|]. intros v' Hv'. assert (v' = write t v) as -> by (cbn in Hv'; congruence). exact (M3 v Ev).
Qed.

Lemma low_update w h : saves (low w h) (menu_update center).
Proof.
  assert (D : holds menu_of prompt_layout) by (unfold prompt_layout; held).
  unfold menu_update. apply saves_bind; [apply saves_low, holds_get|]. intros s. destruct (is_unlocked s); [|now apply saves_low].
  apply saves_bind; [apply saves_low, holds_get|]. intros u. cbv zeta. destruct (ui_views u VMenu); [|apply saves_ret].
  apply saves_check.
  - destruct (Nat.eqb _ 0); [apply saves_ret|]. apply saves_bind; [apply saves_low; held|]. intros cats.
    apply saves_bind; [apply saves_low; held|]. intros _. apply saves_write.
  - apply saves_check.
    + destruct (Nat.eqb _ 0); [apply saves_ret|]. apply saves_bind; [apply saves_low; held|]. intros _. apply saves_write.
    + apply saves_bind; [|intros _; apply saves_ret]. apply saves_put. intros g [M L]. destruct (g_cats g); [split; auto|].
      split; [|cbn; lia]. destruct M as (M1 & M2 & M3). split; [exact M1|]. split; [exact M2|]. intros v' Hv'. specialize (M3 v' Hv'). cbn [g_menu_idx set_menu_idx]. lia.
Qed.

Lemma menu_length s : length (menu s) <= 20.
Proof.
  unfold menu. assert (F : forall {A} (p : A -> bool) l, length (filter p l) <= length l) by (intros A p l; induction l as [|x l IH]; [constructor|cbn [filter]; destruct (p x); cbn [length]; lia]).
  etransitivity; [apply F|]. vm_compute. lia.
Qed.

Variable w h : Z.
Hypothesis wide : (3 <= w)%Z.
Hypothesis high : (28 <= h)%Z.

Lemma menu_set_cursor v y : v_w v = (w - 2)%Z -> v_h v = (h - 8)%Z -> v_cx v = 0%Z -> (0 <= y < 20)%Z ->
  set_cursor (v_cx v) y v = Some (MkView (v_w v) (v_h v) (v_text v) (v_cx v) y (v_ox v) (v_oy v)).
Proof.
  intros H1 H2 H3 H4. unfold set_cursor. destruct (_ || _)%bool eqn:E; [|reflexivity]. exfalso.
  apply Bool.orb_true_iff in E. destruct E as [E|E]; [apply Bool.orb_true_iff in E; destruct E as [E|E]; [apply Bool.orb_true_iff in E; destruct E as [E|E]|]|]; bools; lia.
Qed.

Lemma low_lock g g' : menu_marks w h g -> menu_lock center g = (g', Ok true) -> menu_marks w h g'.
Proof.
  intros M E. unfold menu_lock in E. unfold bind at 1, put at 1 in E. set (g0 := set_menu_idx (-1) (set_cats [] g)) in E.
  apply bind_inv in E. destruct E as (g1 & [] & E1 & E).
  assert (X1 : menu_of g1 = menu_of g0) by (apply (held_in _ _ _ _ _ (holds_on_app menu_of _ (fun _ _ => eq_refl)) E1)).
  apply check_inv in E. destruct E as (g2 & E2 & E). apply try_inv in E2. destruct E2 as (v & v' & V1 & V2 & ->).
  change (menu_of g0) with (ui_w (g_ui g), ui_h (g_ui g), view_of g VMenu, (-1)%Z) in X1. unfold menu_of in X1.
  assert (X : ui_w (g_ui g1) = ui_w (g_ui g) /\ ui_h (g_ui g1) = ui_h (g_ui g) /\ view_of g1 VMenu = view_of g VMenu /\ g_menu_idx g1 = (-1)%Z) by (repeat split; congruence).
  destruct X as (Y1 & Y2 & Y3 & Y4). destruct M as (M1 & M2 & M3). rewrite Y3 in V1. destruct (M3 v V1) as (A1 & A2 & A3 & A4 & A5 & A6).
  unfold reset_cursor in V2. rewrite menu_set_cursor in V2 by (assumption || lia).
  assert (L : low w h (sv VMenu v' g1)).
  { split; [|cbn; lia]. split; [cbn; congruence|]. split; [cbn; congruence|]. intros x Hx. assert (x = v') as -> by (cbn in Hx; congruence).
    injection V2 as <-. cbn [v_w v_h v_cx v_ox v_oy v_cy sv g_menu_idx set_ui]. rewrite Y4. repeat split; auto. }
  apply check_inv in E. destruct E as (g3 & E3 & E). apply check_inv in E. destruct E as (g4 & E4 & E).
  assert (L3 : low w h g3).
  { unfold on_view in E3. destruct (ui_views (g_ui (sv VMenu v' g1)) VMenu) as [x|] eqn:Ex; [|discriminate E3].
    destruct L as [(L1 & L2 & L3) L4]. specialize (L3 x Ex). match type of E3 with (?a, _) = _ => assert (g3 = a) as -> by congruence end.
    split; [|exact L4]. split; [exact L1|]. split; [exact L2|]. intros z Hz. assert (z = clear x) as -> by (cbn in Hz; congruence). exact L3. }
  assert (L4 := saves_in _ _ _ _ _ (low_update w h) E4 L3).
  assert (Hh : holds menu_of (show_help menu_help)) by now apply holds_help.
  exact (menu_marks_of _ _ _ _ (held_in _ _ _ _ _ Hh E) (proj1 L4)).
Qed.

Lemma menu_key O n k g g' : ginv C U tz center g -> current g = n -> menu_marks w h g -> on_key C U tz O center n k g = (g', Ok true) -> menu_marks w h g'.
Proof.
  intros G Hc M E.
  assert (K : holds menu_of (on_key C U tz O center n k) -> menu_marks w h g') by (intros L; specialize (L g); rewrite E in L; exact (menu_marks_of _ _ _ _ L M)).
  assert (Hh : forall x, holds menu_of (show_help x)) by (intros x; now apply holds_help).
  assert (Hd : forall m, holds menu_of (details_update tz m)) by (intros m; unfold details_update; held).
  assert (Hp : holds menu_of pick_item) by (unfold pick_item; held).
  assert (Ho : holds menu_of (show_overview tz)) by (unfold show_overview; held; auto).
  assert (Hu : holds menu_of (items_update tz)) by (unfold items_update; held; auto).
  assert (Hl : holds menu_of (items_layout tz)) by (unfold items_layout, details_layout; held; auto).
  assert (He : holds menu_of (open_entry U tz O)) by (unfold open_entry; held; auto).
  assert (Hb : holds menu_of go_back) by (unfold go_back; held).
  assert (L : items_lock center g = (g', Ok true) -> menu_marks w h g').
  { intros Eh. unfold items_lock in Eh. apply check_inv in Eh. destruct Eh as (h1 & E1 & E2).
    exact (low_lock h1 g' (menu_marks_of _ _ _ _ (held_in _ _ _ _ _ Hb E1) M) E2). }
  assert (X := gi_mode _ _ _ _ _ G). unfold mode in X. rewrite Hc in X.
  assert (R : forall f i, (0 <= i < 20)%Z -> (forall v, (v_w v = w - 2)%Z -> (v_h v = h - 8)%Z -> v_cx v = 0%Z -> v_cy v = Z.max 0 (g_menu_idx g) -> f v = Some (MkView (v_w v) (v_h v) (v_text v) (v_cx v) i (v_ox v) (v_oy v))) ->
    (try_view VMenu f ;;? put (set_menu_idx i) ;;; ret true)%st g = (g', Ok true) -> menu_marks w h g').
  { intros f i Hi Hf Ef. apply check_inv in Ef. destruct Ef as (g1 & E1 & E2). apply try_inv in E1. destruct E1 as (v & v' & V1 & V2 & ->).
    unfold bind, put, ret in E2. destruct M as (M1 & M2 & M3). destruct (M3 v V1) as (A1 & A2 & A3 & A4 & A5 & A6).
    rewrite Hf in V2 by assumption. match type of E2 with (?a, _) = _ => assert (g' = a) as -> by congruence end.
    split; [exact M1|]. split; [exact M2|]. intros x Hx. assert (x = v') as -> by (cbn in Hx; congruence). injection V2 as <-.
    cbn [v_w v_h v_cx v_ox v_oy v_cy sv g_menu_idx set_ui set_menu_idx]. repeat split; auto; lia. }
  destruct n, k; cbn [on_key] in *; try (apply K; apply holds_ret); try (apply K; held; fail); try (apply K; assumption); try (exact (L E)).
  - destruct X as (X & _). unfold menu_up, bind at 1, get at 1 in E. destruct (0 <? g_menu_idx g)%Z eqn:Ei; [|unfold ret in E; assert (g' = g) as -> by congruence; exact M].
    bools. assert (B := menu_length (session g)). assert (J : idx_ok (length (menu (session g))) (g_menu_idx g)) by apply X. destruct J as [[_ J]|J]; [lia|].
    apply (R line_up (g_menu_idx g - 1)%Z); [lia| |exact E]. intros v V1 V2 V3 V4. unfold line_up. rewrite menu_set_cursor; [|assumption|assumption|assumption|lia].
    do 2 f_equal. lia.
  - destruct X as (X & _). unfold menu_down, bind at 1, get at 1, bind at 1, get at 1 in E.
    match type of E with (if ?x then _ else _) _ = _ => destruct x eqn:Ei end; [|unfold ret in E; assert (g' = g) as -> by congruence; exact M].
    apply Bool.andb_true_iff in Ei. destruct Ei as [Ei1 Ei2]. apply Bool.negb_true_iff, Z.eqb_neq in Ei1. bools.
    rewrite (cats_length C U tz dir center g X) in Ei2. assert (B := menu_length (session g)). assert (J : idx_ok (length (menu (session g))) (g_menu_idx g)) by apply X.
    destruct J as [[_ J]|J]; [lia|].
    apply (R line_down (g_menu_idx g + 1)%Z); [lia| |exact E]. intros v V1 V2 V3 V4. unfold line_down. rewrite menu_set_cursor; [|assumption|assumption|assumption|lia].
    do 2 f_equal. lia.
  - exact (low_lock g g' M E).
  - apply K. unfold row_up. held. assumption.
  - apply K. unfold row_down. held. assumption.
  - apply K. unfold reveal. held; auto.
  - apply K. unfold cover. held; auto.
  - destruct X as ((_ & _ & X & _) & _).
    assert (S : saves (low w h) (enter_password C U tz O center)).
    { unfold enter_password. apply saves_bind; [apply saves_low; held|]. intros ?. cbv zeta. apply saves_check; [apply saves_low; held|].
      apply saves_bind; [apply saves_low; held|]. intros ?. apply saves_bind; [apply saves_low; held|]. intros [e|].
      - apply saves_low. unfold error_layout. held.
      - apply saves_check; [apply saves_low; held|apply low_update]. }
    apply (saves_in _ _ _ _ _ S E). split; [exact M|lia].
  - destruct X as ((_ & _ & X & _) & _).
    assert (S : saves (low w h) (close_error center)).
    { unfold close_error. apply saves_check; [apply saves_low; held|apply low_update]. }
    apply (saves_in _ _ _ _ _ S E). split; [exact M|lia].
Qed.

Lemma menu_layout_marks g g' : menu_layout center g = (g', Ok true) ->
  (menu_marks w h g /\ view_of g VMenu <> None) \/ (view_of g VMenu = None /\ ui_w (g_ui g) = w /\ ui_h (g_ui g) = h /\ g_menu_idx g = (-1)%Z) -> menu_marks w h g'.
Proof.
  intros E H. unfold menu_layout, bind at 1, get at 1 in E. unfold bind at 1 in E. unfold set_view at 1 in E. fold (view_of g VMenu) in E.
  assert (S : ui_w (g_ui g) = w /\ ui_h (g_ui g) = h) by (destruct H as [[(M1 & M2 & _) _]|(_ & M1 & M2 & _)]; auto). destruct S as [S1 S2]. rewrite S1, S2 in E.
  destruct (_ || _)%bool; [discriminate E|]. destruct (view_of g VMenu) as [v|] eqn:Ev.
  - destruct H as [[(M1 & M2 & M3) _]|(H & _)]; [|congruence]. unfold ret in E. match type of E with (?a, _) = _ => assert (g' = a) as -> by congruence end.
    split; [exact S1|]. split; [exact S2|]. intros x Hx. specialize (M3 v Ev). cbn in Hx. injection Hx as <-. cbn [v_w v_h v_cx v_ox v_oy v_cy g_menu_idx set_ui]. lia.
  - assert (Hi : (g_menu_idx g <= 0)%Z -> menu_marks w h g').
    { intros Hi. match type of E with ?m ?a = _ => assert (L : low w h a) end.
      { split; [|exact Hi]. split; [exact S1|]. split; [exact S2|]. intros x Hx. cbn in Hx. injection Hx as <-. cbn [v_w v_h v_cx v_ox v_oy v_cy g_menu_idx set_ui]. lia. }
      apply (saves_in (low w h) _ _ _ _) in E; [exact (proj1 E)| |exact L].
      apply saves_check; [apply saves_low; held|]. apply saves_check; [apply low_update|]. apply saves_low. now apply holds_help. }
    destruct H as [[_ H]|(_ & _ & _ & H)]; [now elim H|]. apply Hi. lia.
Qed.

Lemma menu_running Y path es world g :
  Forall (fun e => oracles_ok (fst e) /\ match snd e with Resize _ _ => False | _ => True end) es ->
  gui_process C U tz Y dir center path w h es world = (g, Ok true) -> menu_marks w h g.
Proof.
  intros Hes H.
  assert (L1 : holds menu_of version_layout) by (unfold version_layout; held).
  assert (L2 : holds menu_of help_layout) by (unfold help_layout, help_update; held).
  apply (also_run (menu_marks w h) (fun i => match i with Resize _ _ => False | _ => True end) Y path w h es world g); [| | |exact Hes|exact H].
  - intros a v g1 _ _ E. unfold layout in E. apply check_inv in E. destruct E as (g2 & E2 & E). apply check_inv in E. destruct E as (g3 & E3 & E).
    apply (held_in _ _ _ _ _ L1) in E2. apply (held_in _ _ _ _ _ L2) in E3. apply (menu_layout_marks g3 g1 E). right. unfold menu_of in *. cbn in E2. repeat split; congruence.
  - intros O i g0 g1 HO Hi _ G M E _. destruct i as [k|t|w0 h0| |d].
    + exact (menu_key O _ k g0 g1 G eq_refl M E).
    + assert (X : holds menu_of (handle C U tz O dir center (Typed t))) by (unfold handle; held). exact (menu_marks_of _ _ _ _ (held_in _ _ _ _ _ X E) M).
    + contradiction.
    + assert (X : holds menu_of (handle C U tz O dir center Checked)) by (unfold handle, version_update; held). exact (menu_marks_of _ _ _ _ (held_in _ _ _ _ _ X E) M).
    + unfold handle, bind, put, ret in E. assert (X : menu_of g1 = menu_of g0) by (injection E as <-; reflexivity). exact (menu_marks_of _ _ _ _ X M).
  - intros g0 g1 G M E. unfold layout in E. apply check_inv in E. destruct E as (g2 & E2 & E). apply check_inv in E. destruct E as (g3 & E3 & E).
    apply (held_in _ _ _ _ _ L1) in E2. apply (held_in _ _ _ _ _ L2) in E3. apply (menu_layout_marks g3 g1 E). left.
    split; [exact (menu_marks_of _ _ _ _ (eq_trans E3 E2) M)|]. destruct (mode_views C U tz dir center g0 G) as (v & Hv).
    unfold menu_of in *. assert (view_of g3 VMenu = view_of g0 VMenu) as -> by congruence. congruence.
Qed.
End Cursor.

(** ** The help line and the beginning of an item *)

Section Help.
Variable C : crypto.
Variable U : unicode.
Variable tz : Z -> Z.
Variable dir : bytes.
Variable center : bytes -> Z -> bytes.

Definition help_line (g : gui) : option bytes := shown g VHelp.
Definition helps (g : gui) : Prop :=
  match current g with
  | VItems => help_line g = Some (help_text items_help)
  | VDetails => help_line g = Some (help_text details_help)
  | VMenu => help_line g = Some (help_text menu_help) \/ help_line g = Some (help_text items_help)
  | _ => help_line g = Some (help_text menu_help)
  end.
Definition line_cur (g : gui) := (help_line g, current g).

Lemma helps_of g g' : line_cur g' = line_cur g -> helps g -> helps g'.
Proof.
  intros E. unfold line_cur in E. assert (E' : help_line g' = help_line g /\ current g' = current g) by (split; congruence). destruct E' as [E1 E2].
  unfold helps. now rewrite E1, E2.
Qed.

Lemma show_help_line h g g' : show_help h g = (g', Ok true) -> help_line g' = Some (help_text h) /\ current g' = current g.
Proof.
  unfold show_help, help_update, bind, put, get, on_view. cbn [g_ui set_help g_help]. destruct (ui_views (g_ui g) VHelp); [|discriminate].
  intros E. injection E as <-. split; reflexivity.
Qed.

Lemma no_list_current g : ginv C U tz center g -> view_of g VItems = None -> current g <> VItems /\ current g <> VDetails.
Proof.
  intros G H. assert (X := gi_mode _ _ _ _ _ G). unfold mode in X. split; intros Hc; rewrite Hc in X; destruct X as (_ & (_ & _ & _ & X & _) & _);
    unfold shown in X; rewrite H in X; discriminate X.
Qed.

Lemma menu_help_fits g : ginv C U tz center g -> view_of g VItems = None -> help_line g = Some (help_text menu_help) -> helps g.
Proof. intros G H E. destruct (no_list_current g G H) as [X1 X2]. unfold helps. destruct (current g); auto; congruence. Qed.

Lemma lock_helps g g' : menu_lock center g = (g', Ok true) -> help_line g' = Some (help_text menu_help).
Proof.
  intros E. unfold menu_lock in E. apply bind_inv in E. destruct E as (g1 & x1 & _ & E). apply bind_inv in E. destruct E as (g2 & x2 & _ & E).
  apply check_inv in E. destruct E as (g3 & _ & E). apply check_inv in E. destruct E as (g4 & _ & E). apply check_inv in E. destruct E as (g5 & _ & E).
  exact (proj1 (show_help_line _ _ _ E)).
Qed.

Lemma back_gone g g' : go_back g = (g', Ok true) -> view_of g' VItems = None /\ view_of g' VDetails = None /\ current g' = VMenu /\ help_line g' = help_line g.
Proof.
  intros E. unfold go_back in E. apply check_inv in E. destruct E as (g1 & E1 & E). apply check_inv in E. destruct E as (g2 & E2 & E).
  unfold set_current in E. destruct (ui_views (g_ui g2) VMenu); [|discriminate]. assert (g' = scur VMenu g2) as -> by (unfold scur; congruence).
  unfold delete_view in E2. destruct (ui_views (g_ui g1) VItems); [|discriminate]. assert (g2 = dv VItems g1) as -> by (unfold dv; congruence).
  unfold delete_view in E1. destruct (ui_views (g_ui g) VDetails); [|discriminate]. assert (g1 = dv VDetails g) as -> by (unfold dv; congruence).
  repeat split; reflexivity.
Qed.

Lemma line_overview : holds line_cur (show_overview tz).
Proof. unfold show_overview, pick_item, details_update. held. Qed.
Lemma line_items_update : holds line_cur (items_update tz).
Proof. unfold items_update. held. apply line_overview. Qed.

Lemma help_key O n k g g' : ginv C U tz center g -> ginv C U tz center g' -> current g = n -> helps g -> on_key C U tz O center n k g = (g', Ok true) -> helps g'.
Proof.
  intros G G' Hc M E.
  assert (K : holds line_cur (on_key C U tz O center n k) -> helps g') by (intros L; specialize (L g); rewrite E in L; exact (helps_of _ _ L M)).
  assert (X := gi_mode _ _ _ _ _ G). unfold mode in X. rewrite Hc in X.
  assert (Hs : forall g g', list_of g' = list_of g -> view_of g VItems = None -> view_of g' VItems = None) by (intros h h' Eh; unfold list_of in Eh; congruence).
  assert (IL : items_lock center g = (g', Ok true) -> helps g').
  { intros Eh. unfold items_lock in Eh. apply check_inv in Eh. destruct Eh as (h1 & E1 & E2). apply back_gone in E1. destruct E1 as (E1 & _).
    apply menu_help_fits; [exact G'| |exact (lock_helps _ _ E2)]. apply (Hs h1 g'); [|exact E1]. exact (held_in _ _ _ _ _ (list_menu_lock center) E2). }
  assert (OE : current g = VMenu -> view_of g VItems = None -> open_entry U tz O g = (g', Ok true) -> helps g').
  { intros Hm Hn Eo. unfold open_entry, bind at 1, get at 1 in Eo. destruct (g_menu_idx g =? -1)%Z; [unfold ret in Eo; assert (g' = g) as -> by congruence; exact M|].
    apply check_inv in Eo. destruct Eo as (g1 & E1 & E2). unfold items_layout, bind at 1, get at 1 in E1. apply bind_inv in E1. destruct E1 as (g2 & md & Em & E1).
    unfold set_view in Em. destruct (_ || _)%bool; [assert (md = Bad) as -> by congruence; discriminate E1|]. unfold view_of in Hn. rewrite Hn in Em.
    assert (md = New) as -> by congruence. apply bind_inv in E1. destruct E1 as (g3 & x3 & _ & E1).
    apply check_inv in E1. destruct E1 as (g4 & _ & E1). apply check_inv in E1. destruct E1 as (g5 & E5 & E1). destruct (show_help_line _ _ _ E1) as [F1 F2].
    assert (F5 : current g5 = VItems). { unfold set_current in E5. destruct (ui_views (g_ui g4) VItems); [|discriminate E5]. injection E5 as <-. reflexivity. }
    apply bind_inv in E2. destruct E2 as (h1 & y1 & H1 & E2). apply bind_inv in E2. destruct E2 as (h2 & y2 & H2 & E2). apply bind_inv in E2. destruct E2 as (h3 & y3 & H3 & E2).
    assert (T : line_cur g' = line_cur g1).
    { rewrite (held_in _ _ _ _ _ line_items_update E2). unfold get in H1, H2. unfold put in H3. assert (h1 = g1) as -> by congruence. assert (h2 = g1) as -> by congruence.
      assert (h3 = set_rows (rows_of U O y1 (g_menu_idx g) y2) g1) as -> by congruence. reflexivity. }
    apply (helps_of g1 g' T). unfold helps. rewrite F2, F5. exact F1. }
  destruct n, k; cbn [on_key] in *; try (apply K; apply holds_ret); try (apply K; held; fail); try (exact (IL E)).
  - apply K. unfold menu_up. held.
  - apply K. unfold menu_down. held.
  - destruct X as (_ & [X _] & _). exact (OE Hc X E).
  - destruct X as (_ & [X _] & _). exact (OE Hc X E).
  - destruct X as (_ & [X _] & _). apply menu_help_fits; [exact G'| |exact (lock_helps _ _ E)]. apply (Hs g g'); [|exact X]. exact (held_in _ _ _ _ _ (list_menu_lock center) E).
  - apply K. unfold row_up. held. apply line_overview.
  - apply K. unfold row_down. held. apply line_overview.
  - apply back_gone in E. destruct E as (_ & _ & E1 & E2). unfold helps in *. rewrite E1, E2. rewrite Hc in M. now right.
  - unfold reveal in E. apply bind_inv in E. destruct E as (g1 & x1 & _ & E). apply check_inv in E. destruct E as (g2 & _ & E). apply check_inv in E. destruct E as (g3 & E3 & E).
    destruct (show_help_line _ _ _ E) as [F1 F2]. unfold set_current in E3. destruct (ui_views (g_ui g2) VDetails); [|discriminate E3].
    unfold helps. rewrite F2. injection E3 as <-. exact F1.
  - apply back_gone in E. destruct E as (_ & _ & E1 & E2). unfold helps in *. rewrite E1, E2. rewrite Hc in M. now right.
  - unfold cover in E. apply check_inv in E. destruct E as (g2 & _ & E). apply check_inv in E. destruct E as (g3 & E3 & E).
    destruct (show_help_line _ _ _ E) as [F1 F2]. unfold set_current in E3. destruct (ui_views (g_ui g2) VItems); [|discriminate E3].
    unfold helps. rewrite F2. injection E3 as <-. exact F1.
  - destruct X as (_ & [X _] & _).
    assert (L1 : holds help_line (enter_password C U tz O center)) by (unfold enter_password, error_layout, menu_update, prompt_layout; held).
    assert (L2 : holds list_of (enter_password C U tz O center)) by (unfold enter_password, error_layout; held; apply list_menu_update).
    apply menu_help_fits; [exact G'| |]; [exact (Hs g g' (held_in _ _ _ _ _ L2 E) X)|]. rewrite (held_in _ _ _ _ _ L1 E). unfold helps in M. now rewrite Hc in M.
  - destruct X as (_ & [X _] & _).
    assert (L1 : holds help_line (close_error center)) by (unfold close_error, menu_update, prompt_layout; held).
    assert (L2 : holds list_of (close_error center)) by (unfold close_error; held; apply list_menu_update).
    apply menu_help_fits; [exact G'| |]; [exact (Hs g g' (held_in _ _ _ _ _ L2 E) X)|]. rewrite (held_in _ _ _ _ _ L1 E). unfold helps in M. now rewrite Hc in M.
Qed.

(** The layout of a screen that is there changes sizes only. *)
Lemma layout_resized g g' : ginv C U tz center g -> layout center g = (g', Ok true) -> resized g g'.
Proof.
  intros G E. destruct (mode_views C U tz dir center g G) as (v & Hv).
  destruct (layout_ok C U tz dir center g (gi_version _ _ _ _ _ G) (gi_help _ _ _ _ _ G)) as (g2 & ok & E2 & R & _); [congruence|].
  rewrite E in E2. assert (g2 = g') as -> by congruence. exact R.
Qed.

Lemma help_running Y g : running C U tz Y dir center g -> helps g.
Proof.
  intros Hr. assert (Hr' := Hr). destruct Hr' as (path & w & h & es & world & Hes & H).
  apply (also_run C U tz dir center helps (fun _ => True) Y path w h es world g); [| | | |exact H].
  - intros a v g1 Hr1 Hl1 E. destruct (first_layout C U tz dir center a v w h Hr1 Hl1) as (g2 & ok & E2 & F). rewrite E in E2.
    assert (ok = true) as -> by congruence. assert (g2 = g1) as -> by congruence. unfold helps, help_line. destruct F as (_ & -> & F). tauto.
  - intros O i g0 g1 HO _ _ G M E G1. destruct i as [k|t|w0 h0| |d].
    + exact (help_key O _ k g0 g1 G G1 eq_refl M E).
    + assert (X : holds line_cur (handle C U tz O dir center (Typed t))) by (unfold handle; held). exact (helps_of _ _ (held_in _ _ _ _ _ X E) M).
    + unfold handle, bind, put, ret in E. assert (X : line_cur g1 = line_cur g0) by (injection E as <-; reflexivity). exact (helps_of _ _ X M).
    + assert (X : holds line_cur (handle C U tz O dir center Checked)) by (unfold handle, version_update; held). exact (helps_of _ _ (held_in _ _ _ _ _ X E) M).
    + unfold handle, bind, put, ret in E. assert (X : line_cur g1 = line_cur g0) by (injection E as <-; reflexivity). exact (helps_of _ _ X M).
  - intros g0 g1 G M E. assert (R := layout_resized g0 g1 G E). apply (helps_of g0); [|exact M]. unfold line_cur, help_line.
    rewrite (resized_shown C U tz dir center _ _ VHelp R). f_equal. exact (rs_cur _ _ R).
  - eapply Forall_impl; [|exact Hes]. auto.
Qed.

(** The origin of the details. *)
Definition details_view (g : gui) := view_of g VDetails.

Lemma reset_top v v' : (0 <= v_oy v)%Z -> reset_origin v = Some v' -> v_oy v' = 0%Z /\ (v_oy v = 0%Z -> (0 <= v_ox v)%Z -> v_ox v' = 0%Z).
Proof.
  intros H. unfold reset_origin, set_origin. repeat match goal with |- context [if ?x then _ else _] => destruct x eqn:?; cbv iota end; intros E; try discriminate E;
    injection E as <-; cbn [v_oy v_ox]; bools; lia.
Qed.

(** Showing an item goes to its first line, and to its first column unless both origins were moved. *)
Lemma details_top m g g' : origins g -> details_update tz m g = (g', Ok true) ->
  exists d d', view_of g VDetails = Some d /\ view_of g' VDetails = Some d' /\ v_oy d' = 0%Z /\ (v_oy d = 0%Z -> v_ox d' = 0%Z).
Proof.
  intros Ho E. unfold details_update, bind at 1, get at 1 in E. apply check_inv in E. destruct E as (g1 & E1 & E). apply try_inv in E1.
  destruct E1 as (d & d1 & D1 & D2 & ->). destruct (Ho _ _ D1) as [O1 O2]. apply reset_top in D2; [|exact O2]. destruct D2 as [R1 R2].
  destruct (g_item g) as [i|].
  - unfold on_view in E. cbn [sv set_ui g_ui put_view ui_views vname_eqb] in E. injection E as <-. exists d. eexists. split; [exact D1|]. split; [reflexivity|]. split; [exact R1|]. intros X. now apply R2.
  - unfold ret in E. injection E as <-. exists d, d1. split; [exact D1|]. split; [reflexivity|]. split; [exact R1|]. intros X. now apply R2.
Qed.

(** Every action but scrolling keeps the first line first. *)
Lemma saves_details (P : gui -> Prop) {A} (m : gact A) : (forall g g', details_view g' = details_view g -> P g -> P g') -> holds details_view m -> saves P m.
Proof. intros HP H g Hg. apply (HP g); [exact (H g)|exact Hg]. Qed.
Section Clean.
Variable q : bool.
Definition clean (g : gui) : Prop := forall d, view_of g VDetails = Some d -> v_oy d = 0%Z /\ (0 <= v_ox d)%Z /\ (q = true -> v_ox d = 0%Z).
Lemma clean_of g g' : details_view g' = details_view g -> clean g -> clean g'.
Proof. unfold details_view, clean. intros ->. auto. Qed.
Lemma clean_update m : saves clean (details_update tz m).
Proof.
  unfold details_update. apply saves_bind; [apply saves_details; [exact clean_of|held]|]. intros i. apply saves_check.
  - intros g Hg. unfold try_view. destruct (ui_views (g_ui g) VDetails) as [d|] eqn:Ed; [|exact Hg]. destruct (Hg d Ed) as (D1 & D2 & D3).
    destruct (reset_origin (clear d)) as [d'|] eqn:Er; [|exact Hg]. assert (R := reset_top (clear d) d'). cbn [clear v_oy v_ox] in R. destruct R as [R1 R2]; [lia|exact Er|].
    intros x Hx. cbn in Hx. injection Hx as <-. specialize (R2 D1 D2). lia.
  - destruct i as [i|]; [|apply saves_ret]. intros g Hg. unfold on_view. destruct (ui_views (g_ui g) VDetails) as [d|] eqn:Ed; [|exact Hg].
    intros x Hx. cbn in Hx. injection Hx as <-. exact (Hg d Ed).
Qed.
Lemma clean_held {A} (m : gact A) : holds details_view m -> saves clean m.
Proof. intros H. exact (saves_details clean m clean_of H). Qed.
Lemma clean_overview : saves clean (show_overview tz).
Proof. unfold show_overview. apply saves_bind; [apply clean_held; unfold pick_item; held|]. intros _. apply clean_update. Qed.
Lemma clean_items_update : saves clean (items_update tz).
Proof.
  unfold items_update. apply saves_bind; [apply clean_held; held|]. intros [v|]; [|apply saves_ret]. apply saves_bind; [apply clean_held; held|]. intros _.
  apply saves_check; [apply clean_held; held|]. apply saves_check; [apply clean_held; held|]. apply saves_bind; [apply clean_held; held|]. intros [|row rows]; [apply saves_ret|].
  apply saves_check; [apply clean_held; held|]. apply saves_bind; [apply clean_held; held|]. intros _. apply clean_overview.
Qed.
Lemma clean_details_layout : saves clean details_layout.
Proof.
  unfold details_layout. apply saves_bind; [apply clean_held; held|]. intros u. apply saves_bind; [|intros x; apply saves_ret].
  intros g Hg. unfold set_view. destruct (_ || _)%bool; [exact Hg|]. destruct (ui_views (g_ui g) VDetails) as [d|] eqn:Ed; intros x Hx; cbn in Hx; injection Hx as <-; [exact (Hg d Ed)|cbn; repeat split; lia].
Qed.
Lemma clean_open_entry O : saves clean (open_entry U tz O).
Proof.
  assert (Hh : forall x, saves clean (show_help x)) by (intros x; apply clean_held; now apply holds_help).
  unfold open_entry. apply saves_bind; [apply clean_held; held|]. intros idx. destruct (idx =? -1)%Z; [apply saves_ret|]. apply saves_check.
  - unfold items_layout. apply saves_bind; [apply clean_held; held|]. intros u. apply saves_bind; [apply clean_held; held|]. intros [| |]; try apply saves_ret.
    apply saves_bind; [apply clean_items_update|]. intros _. apply saves_check; [apply clean_details_layout|]. apply saves_check; [apply clean_held; held|apply Hh].
  - apply saves_bind; [apply clean_held; held|]. intros cats. apply saves_bind; [apply clean_held; held|]. intros s. apply saves_bind; [apply clean_held; held|]. intros _. apply clean_items_update.
Qed.

End Clean.

(** Unless an item is being read, the details show the first lines. *)
Definition rests (g : gui) : Prop := current g <> VDetails -> clean false g.

Lemma rests_key O n k g g' : ginv C U tz center g -> ginv C U tz center g' -> current g = n -> rests g -> on_key C U tz O center n k g = (g', Ok true) -> rests g'.
Proof.
  intros G G' Hc M E.
  assert (K : n <> VDetails -> saves (clean false) (on_key C U tz O center n k) -> rests g').
  { intros Hn S _. apply (saves_in _ _ _ _ _ S E). apply M. congruence. }
  assert (H : forall {A} (m : gact A), holds details_view m -> saves (clean false) m) by (intros; now apply clean_held).
  assert (Hh : forall x, saves (clean false) (show_help x)) by (intros x; apply H; now apply holds_help).
  assert (IL : items_lock center g = (g', Ok true) -> rests g').
  { intros Eh. unfold items_lock in Eh. apply check_inv in Eh. destruct Eh as (h1 & E1 & E2). apply back_gone in E1. destruct E1 as (_ & E1 & _).
    assert (L : holds details_view (menu_lock center)) by (unfold menu_lock, menu_update, prompt_layout; held; now apply holds_help).
    intros _ d Hd. apply (held_in _ _ _ _ _ L) in E2. unfold details_view in E2. congruence. }
  destruct n, k; cbn [on_key] in *; try (apply K; [discriminate|apply saves_ret]); try (exact (IL E)).
  - apply K; [discriminate|]. apply H. unfold menu_up. held.
  - apply K; [discriminate|]. apply H. unfold menu_down. held.
  - apply K; [discriminate|]. apply clean_open_entry.
  - apply K; [discriminate|]. apply clean_open_entry.
  - apply K; [discriminate|]. apply H. unfold menu_lock, menu_update, prompt_layout; held; now apply holds_help.
  - apply K; [discriminate|]. unfold row_up. apply saves_bind; [apply H; held|]. intros idx. destruct (0 <? idx)%Z; [|apply saves_ret].
    apply saves_check; [apply H; held|]. apply saves_bind; [apply H; held|]. intros _. apply clean_overview.
  - apply K; [discriminate|]. unfold row_down. apply saves_bind; [apply H; held|]. intros rows. apply saves_bind; [apply H; held|]. intros idx. destruct (_ && _)%bool; [|apply saves_ret].
    apply saves_check; [apply H; held|]. apply saves_bind; [apply H; held|]. intros _. apply clean_overview.
  - apply back_gone in E. destruct E as (_ & E & _). intros _ d Hd. congruence.
  - apply K; [discriminate|]. unfold reveal. apply saves_bind; [apply H; unfold pick_item; held|]. intros _. apply saves_check; [apply clean_update|]. apply saves_check; [apply H; held|apply Hh].
  - apply back_gone in E. destruct E as (_ & E & _). intros _ d Hd. congruence.
  - intros X. exfalso. apply X. rewrite (held_in current _ _ _ _ (holds_try_view current VDetails scroll_up (fun _ _ => eq_refl)) E). exact Hc.
  - intros X. exfalso. apply X. rewrite (held_in current _ _ _ _ (holds_try_view current VDetails scroll_down (fun _ _ => eq_refl)) E). exact Hc.
  - intros X. exfalso. apply X. rewrite (held_in current _ _ _ _ (holds_try_view current VDetails scroll_left (fun _ _ => eq_refl)) E). exact Hc.
  - intros X. exfalso. apply X. rewrite (held_in current _ _ _ _ (holds_try_view current VDetails scroll_right (fun _ _ => eq_refl)) E). exact Hc.
  - intros X. exfalso. apply X. unfold ret in E. congruence.
  - unfold cover in E. apply check_inv in E. destruct E as (g2 & E2 & E).
    apply details_top in E2; [|exact (gi_origin _ _ _ _ _ G)]. destruct E2 as (d & d' & _ & D2 & D3 & _).
    assert (L : holds details_view (set_current VItems ;;? show_help items_help)) by (held; now apply holds_help). apply (held_in _ _ _ _ _ L) in E. unfold details_view in E.
    intros _ x Hx. split; [congruence|]. split; [exact (proj1 (gi_origin _ _ _ _ _ G' _ _ Hx))|discriminate].
  - intros X. exfalso. apply X. unfold ret in E. congruence.
  - intros X. exfalso. apply X. unfold ret in E. congruence.
  - apply K; [discriminate|]. apply H. unfold enter_password, error_layout, menu_update, prompt_layout; held.
  - apply K; [discriminate|]. apply H. unfold close_error, menu_update, prompt_layout; held.
Qed.

Lemma rests_of g g' : details_view g' = details_view g -> current g' = current g -> rests g -> rests g'.
Proof. intros E1 E2 H Hc. apply (clean_of false g); [exact E1|]. apply H. congruence. Qed.

Lemma rests_running Y g : running C U tz Y dir center g -> rests g.
Proof.
  intros (path & w & h & es & world & Hes & H).
  apply (also_run C U tz dir center rests (fun _ => True) Y path w h es world g); [| | | |exact H].
  - intros a v g1 Hr1 Hl1 E. destruct (first_layout C U tz dir center a v w h Hr1 Hl1) as (g2 & ok & E2 & F). rewrite E in E2.
    assert (ok = true) as -> by congruence. assert (g2 = g1) as -> by congruence. intros _ d Hd.
    assert (view_of g1 VDetails = None) by tauto. congruence.
  - intros O i g0 g1 HO _ _ G M E G1. destruct i as [k|t|w0 h0| |d].
    + exact (rests_key O _ k g0 g1 G G1 eq_refl M E).
    + assert (X : holds details_view (handle C U tz O dir center (Typed t))) by (unfold handle; held). assert (X' : holds current (handle C U tz O dir center (Typed t))) by (unfold handle; held).
      exact (rests_of _ _ (held_in _ _ _ _ _ X E) (held_in _ _ _ _ _ X' E) M).
    + unfold handle, bind, put, ret in E. injection E as <-. exact M.
    + assert (X : holds details_view (handle C U tz O dir center Checked)) by (unfold handle, version_update; held). assert (X' : holds current (handle C U tz O dir center Checked)) by (unfold handle, version_update; held).
      exact (rests_of _ _ (held_in _ _ _ _ _ X E) (held_in _ _ _ _ _ X' E) M).
    + unfold handle, bind, put, ret in E. injection E as <-. exact M.
  - intros g0 g1 G M E. assert (R := layout_resized g0 g1 G E).
    assert (L : holds details_view (layout center)) by (unfold layout, version_layout, help_layout, menu_layout, help_update, menu_update, prompt_layout; held; now apply holds_help).
    exact (rests_of _ _ (held_in _ _ _ _ _ L E) (rs_cur _ _ R) M).
  - eapply Forall_impl; [|exact Hes]. auto.
Qed.
End Help.
