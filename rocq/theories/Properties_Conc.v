(** The update check that runs beside the GUI (C103). *)
From Verif Require Import Base Utf8 GoStrings Json Civil Crypto Path Fs FsProof Domain Repos Session SessionProof
  World WorldProof Config Updater Cli CliProof CliEvents Spec_Vault Spec_Writer Spec_Domain VaultProof Toy ToyYaml Gui Spec_Gui GuiProof GuiRun GuiCursor GuiWorld Conc ConcProof.
From Verif Require Import Properties_Vault Properties_Layout Properties_Session Properties_Update Properties_Check Properties_Cli Properties_Cli2 Properties_Show Properties_End Properties_Gui Properties_Gui2 Properties_Gui3
  Properties_TopLine Properties_Start.

Local Open Scope st_scope.

(** ** Specification *)

(** The same screen, session and settings, in another world. *)
Definition in_world (w : world) (g : gui) : gui := set_app (MkApp w (a_conf (g_app g)) (a_vault (g_app g))) g.
(** The same files, apart from the one at [l]. *)
Definition same_files_but (l : loc) (D D' : disk) : Prop :=
  d_cwd D = d_cwd D' /\ d_unreadable D = d_unreadable D' /\ forall k, k <> l -> fs_get (d_fs D) k = fs_get (d_fs D') k.
(** What the user and other programs did in a schedule, without the goroutine. *)
Fixpoint events_in (ts : list turn) : list (oracles * input) :=
  match ts with [] => [] | Tick :: ts => events_in ts | Event Or i :: ts => (Or, i) :: events_in ts end.
(** Whether the loop goes on, without the state of the goroutine. *)
Definition end_of (r : res (bool * task)) : res bool :=
  match r with Ok (more, _) => Ok more | Panic => Panic | Exit n => Exit n end.
Fixpoint ticks (ts : list turn) : nat :=
  match ts with [] => 0 | Tick :: ts => S (ticks ts) | Event _ _ :: ts => ticks ts end.

(** ** The steps of the goroutine *)

Definition rank (k : task) : nat :=
  match k with Ask => 7 | Clock _ => 6 | Look _ _ => 5 | Make _ _ => 4 | Open _ _ => 3 | Fill _ _ _ => 2 | Show _ => 1 | Over => 0 end.

Lemma tick_rank dir center k g g' k' : tick dir center k g = (g', Ok k') -> rank k' <= rank k - 1.
Proof.
  destruct k; cbn [tick]; intros E; repeat (apply bind_inv in E; destruct E as (? & ? & _ & E)); unfold ret, os_exit, lift in E;
    repeat match type of E with context [match ?y with _ => _ end] => destruct y end; try discriminate E; injection E as _ <-; cbn; lia.
Qed.

Lemma weave_rank C U tz dir center ts : forall k g g' k', weave C U tz dir center ts k g = (g', Ok (true, k')) -> rank k' <= rank k - ticks ts.
Proof.
  induction ts as [|[|Or i] ts IH]; intros k g g' k' E; cbn [weave ticks] in *.
  - unfold ret in E. injection E as _ <-. lia.
  - apply bind_inv in E. destruct E as (g1 & k1 & E1 & E2). apply tick_rank in E1. apply IH in E2. lia.
  - apply bind_inv in E. destruct E as (g1 & more & E1 & E2). destruct more; [|discriminate E2]. now apply IH in E2.
Qed.

(** Whatever happens in between: the check is over after seven steps of its own. *)
Theorem C103_check_ends : forall C U tz dir center ts g g' k,
  weave C U tz dir center ts Ask g = (g', Ok (true, k)) -> 7 <= ticks ts -> k = Over.
Proof.
  intros C U tz dir center ts g g' k E H. apply weave_rank in E. cbn [rank] in E. destruct k; cbn [rank] in E; (reflexivity || lia).
Qed.
Print Assumptions C103_check_ends.

(** If nothing happens in between, the steps do what [Checked], the check as one event, does. *)
Section Alone.
Variable C : crypto.
Variable U : unicode.
Variable tz : Z -> Z.
Variable dir : bytes.
Variable center : bytes -> Z -> bytes.
Let run n := weave C U tz dir center (repeat Tick n).

Definition show_result (r : eres update_info) : gact bool :=
  on_view VVersion (write (check_text r)) ;;; put (set_checking false) ;;; ok <- layout center ;; if ok then ret true else os_exit 1.
Definition told (p : gui * res bool) : gui * res (bool * task) :=
  (fst p, match snd p with Ok _ => Ok (true, Over) | Panic => Panic | Exit n => Exit n end).

Lemma run_over n g : run n Over g = (g, Ok (true, Over)).
Proof. unfold run. induction n as [|n IH]; [reflexivity|]. exact IH. Qed.
Lemma run_show n r g : run (S n) (Show r) g = told (show_result r g).
Proof.
  unfold run. cbn [repeat weave]. fold (run n). unfold tick, show_result, told, bind.
  destruct (on_view VVersion (write (check_text r)) g) as [g1 [x| |k]]; try reflexivity. unfold put.
  destruct (layout center (set_checking false g1)) as [g2 [[|]| |k]]; try reflexivity. unfold ret. apply run_over.
Qed.

Lemma run_io {A} (m : io A) k (f : A -> task) n g w x :
  tick dir center k = bind (on_app (on_world m)) (fun x => ret (f x)) -> m (gworld g) = (w, Ok x) ->
  run (S n) k g = run n (f x) (in_world w g).
Proof.
  intros Ht E. unfold run. cbn [repeat weave]. rewrite Ht. unfold bind. rewrite (world_step _ _ _ _ E). reflexivity.
Qed.

Lemma ends_open p perm : ends (open_trunc p perm).
Proof.
  intros w. unfold open_trunc. destruct (resolve_new (w_disk w) p) as [l|]; [|eexists; eexists; reflexivity].
  assert (H : forall c m, exists w1 x, bind (change (fs_set l (NFile c m))) (fun ok => ret (if ok then Some l else None)) w = (w1, Ok x)).
  { intros c m. exact (ends_bind _ _ (ends_change _) (fun ok => ends_ret _) w). }
  destruct (fs_get (w_fs w) l) as [[c m|]|]; [apply H|eexists; eexists; reflexivity|apply H].
Qed.
Lemma ends_write l data : ends (write_bytes l data).
Proof. intros w. unfold write_bytes. destruct (w_faults w) as [|[n|] fl]; eexists; eexists; reflexivity. Qed.

Lemma run_save n r t g : run (S (S (S n))) (Open r t) g =
  told (show_result r (in_world (fst (write_file (join_path [dir; last_check_file]) (itoa (t / 1000000000)%Z) 420 (gworld g))) g)).
Proof.
  destruct (ends_open (join_path [dir; last_check_file]) 420 (gworld g)) as (w1 & o & E1).
  rewrite (run_io (open_trunc (join_path [dir; last_check_file]) 420) (Open r t) (fun o => match o with Some l => Fill r t l | None => Show r end) _ _ _ _ eq_refl E1).
  unfold write_file, bind. rewrite E1. destruct o as [l|]; [|apply run_show].
  destruct (ends_write l (itoa (t / 1000000000)%Z) w1) as (w2 & x & E2).
  rewrite (run_io (write_bytes l (itoa (t / 1000000000)%Z)) (Fill r t l) (fun _ => Show r) _ (in_world w1 g) _ _ eq_refl E2). rewrite E2. apply run_show.
Qed.

Lemma run_stamp n r g : run (S (S (S (S (S (S n)))))) (Clock r) g = told (show_result r (in_world (fst (check_timestamp dir (gworld g))) g)).
Proof.
  assert (E1 : exists w1 t, now (gworld g) = (w1, Ok t)) by (unfold now; destruct (w_clock (gworld g)); eauto). destruct E1 as (w1 & t & E1).
  rewrite (run_io now (Clock r) (Look r) _ _ _ _ eq_refl E1).
  rewrite (run_io (io_stat dir) (Look r t) (fun d => match d with None => Make r t | Some _ => Open r t end) _ (in_world w1 g) w1 (stat (w_disk w1) dir) eq_refl eq_refl).
  assert (T : check_timestamp dir (gworld g) = (match stat (w_disk w1) dir with None => mkdir_all dir | Some _ => ret true end ;;;
     write_file (join_path [dir; last_check_file]) (itoa (t / 1000000000)%Z) 420 ;;; ret tt) w1).
  { unfold check_timestamp. unfold bind at 1. rewrite E1. reflexivity. }
  rewrite T. clear T.
  assert (F : forall w, fst ((write_file (join_path [dir; last_check_file]) (itoa (t / 1000000000)%Z) 420 ;;; ret tt) w) = fst (write_file (join_path [dir; last_check_file]) (itoa (t / 1000000000)%Z) 420 w)).
  { intros w. unfold bind. now destruct (write_file _ _ _ w) as [w2 [x| |k]]. }
  destruct (stat (w_disk w1) dir) as [d|].
  - unfold bind at 1, ret at 1. rewrite F. exact (run_save _ r t (in_world w1 g)).
  - destruct (ends_mkdir dir w1) as (w2 & x & E2). rewrite (run_io (mkdir_all dir) (Make r t) (fun _ => Open r t) _ (in_world w1 (in_world w1 g)) _ _ eq_refl E2).
    unfold bind at 1. rewrite E2, F. exact (run_save _ r t (in_world w2 g)).
Qed.

Lemma checked_alone Or g : g_checking g = true ->
  gui_step C U tz Or dir center Checked g =
  match facade_check (gconf g) true dir (gworld g) with
  | (w, Ok r) => show_result r (in_world w g)
  | (w, Panic) => (in_world w g, Panic)
  | (w, Exit n) => (in_world w g, Exit n)
  end.
Proof.
  intros Hc. unfold gui_step, handle, check. unfold bind at 1 2 3, get at 1. rewrite Hc. unfold version_update, bind at 1 2, on_app.
  unfold bind at 1, the_conf, on_world. change (a_conf (g_app g)) with (gconf g). change (a_world (g_app g)) with (gworld g).
  destruct (facade_check (gconf g) true dir (gworld g)) as [w [r| |n]]; try reflexivity.
  unfold show_result, bind, ret. change (set_app (MkApp w (gconf g) (a_vault (g_app g))) g) with (in_world w g).
  assert (T : (match r with
    | Val info => b "(new version is available: v" ++ ui_version info ++ b " - run '1pass update' to upgrade)"
    | Err ErrNoUpdate => b "(" ++ err_text ErrNoUpdate ++ b ")"
    | Err _ => b "(update check failed - run '1pass update' for more info)"
    end) = check_text r) by reflexivity.
  rewrite T. now destruct (on_view VVersion (write (check_text r)) (in_world w g)) as [g1 [x| |n]].
Qed.
End Alone.

Theorem C103_check_alone : forall C U tz dir center Or g, g_checking g = true ->
  let p := gui_step C U tz Or dir center Checked g in
  weave C U tz dir center (repeat Tick 7) Ask g =
  (fst p, match snd p with Ok _ => Ok (true, Over) | Panic => Panic | Exit n => Exit n end).
Proof.
  intros C U tz dir center Or g Hc. cbv zeta. rewrite (checked_alone C U tz dir center Or g Hc).
  destruct (fetch_info (gworld g)) as [w1 x] eqn:Ef.
  assert (T : tick dir center Ask g = match get_config (gconf g) with
     | Ok _ => (in_world w1 g, match x with Ok r => Ok (match r with Err e => Show (Err e) | Val None => Clock (Err ErrNoUpdate) | Val (Some info) => Clock (if ui_newer info then Val info else Err ErrNoUpdate) end) | Panic => Panic | Exit n => Exit n end)
     | Panic => (g, Panic) | Exit n => (g, Exit n) end).
  { unfold tick. unfold bind at 1. rewrite on_conf. unfold bind at 1, lift. destruct (get_config (gconf g)); try reflexivity.
    unfold bind. rewrite (world_step _ _ _ _ Ef). now destruct x. }
  assert (W : weave C U tz dir center (repeat Tick 7) Ask g = (k <- tick dir center Ask ;; weave C U tz dir center (repeat Tick 6) k) g) by reflexivity.
  rewrite W. clear W. unfold bind at 1. rewrite T. clear T.
  assert (S : forall r : eres update_info, (check_timestamp dir ;;; ret r) w1 = (fst (check_timestamp dir w1), Ok r)).
  { intros r. unfold bind. assert (Hs := stamp_ok dir w1). destruct (check_timestamp dir w1) as [w2 y]. cbn [snd] in Hs. now subst y. }
  assert (F : facade_check (gconf g) true dir (gworld g) = match get_config (gconf g) with
    | Ok _ => match x with
              | Ok (Err e) => (w1, Ok (Err e))
              | Ok (Val None) => (fst (check_timestamp dir w1), Ok (Err ErrNoUpdate))
              | Ok (Val (Some info)) => (fst (check_timestamp dir w1), Ok (if ui_newer info then Val info else Err ErrNoUpdate))
              | Panic => (w1, Panic) | Exit n => (w1, Exit n)
              end
    | Panic => (gworld g, Panic) | Exit n => (gworld g, Exit n) end).
  { unfold facade_check, bind at 1, lift. destruct (get_config (gconf g)) as [c| |n]; try reflexivity.
    unfold check_for_update, bind at 1, ret at 1. cbn [negb]. unfold bind at 1. rewrite Ef. destruct x as [[[info|]|e]| |n]; try reflexivity; apply S. }
  rewrite F. clear F S. destruct (get_config (gconf g)) as [c| |n].
  - destruct x as [[[info|]|e]| |n].
    + exact (run_stamp C U tz dir center 0 _ (in_world w1 g)).
    + exact (run_stamp C U tz dir center 0 _ (in_world w1 g)).
    + exact (run_show C U tz dir center 5 _ (in_world w1 g)).
    + reflexivity.
    + reflexivity.
  - cbn [fst snd]. f_equal. symmetry. apply swap_same.
  - cbn [fst snd]. f_equal. symmetry. apply swap_same.
Qed.
Print Assumptions C103_check_alone.

(** ** The main claim *)

Lemma events_inputs ts : events_in ts = inputs ts.
Proof. induction ts as [|[|Or i] ts IH]; [reflexivity|exact IH|]. cbn. now rewrite IH. Qed.

Lemma begins C U tz Y dir center path w h world m cfg g0 :
  load_config Y (w_disk world) dir = Ok m -> is_available m = true -> get_config m = Ok cfg ->
  gui_process C U tz Y dir center path w h [] world = (g0, Ok true) ->
  g_vault g0 = vault_in_use path m /\ vault_in_use path m <> [] /\ gworld g0 = world /\ there g0 /\ g_checking g0 = true.
Proof.
  intros Hm Ha Hc Hg. destruct (C102_asks_for_password C U tz Y dir center path w h world m cfg g0 true Hm Ha Hc Hg) as (_ & Hv & _ & _ & _ & _ & _ & Hw).
  assert (Hg' := Hg). unfold gui_process in Hg. rewrite Hm, (first_run_none _ _ _ _ _ _ Ha) in Hg.
  destruct (start_gui center path w h (MkApp world m init)) as [g [x| |n]] eqn:Es; try discriminate. cbn [play] in Hg. unfold ret in Hg. injection Hg as -> .
  assert (T := start_top _ _ _ _ _ _ _ Es). unfold top_of in T. injection T as T1 T2.
  split; [|split; [|split; [exact Hw|split; [unfold there; unfold shown in T1; destruct (view_of g0 VVersion); discriminate|exact T2]]]].
  - unfold start_gui in Es. assert (Ep := pick_eq path (MkApp world m init) cfg Hc). assert (Er := pick_vault_session C U tz dir center path (MkApp world m init)).
    destruct (pick_vault path (MkApp world m init)) as [a r0]. specialize (Er a r0 eq_refl (init_reachable C U tz) eq_refl). destruct Er as [Hr Hl].
    unfold bind, on_vault in Ep. cbn [a_world a_conf a_vault] in Ep.
    destruct (validate (w_disk world) (vault_in_use path m) init) as [[s [e|]]| |n]; [|unfold ret in Ep|..]; injection Ep as -> ->; try discriminate Es.
    destruct (first_layout C U tz dir center _ (vault_in_use path m) w h Hr Hl) as (g1 & ok & Ey & F). unfold bind in Es. rewrite Ey in Es.
    destruct ok; [|discriminate Es]. unfold ret in Es. injection Es as -> _. apply F.
  - intros E. rewrite E in Hv. destruct Hv as (L & Hv & _). discriminate Hv.
Qed.

(** The GUI is open (its settings exist, the vault's path has no wild cards, the settings directory has an absolute
    path and is there, also after other programs changed files).  The check for updates runs beside it, in any
    interleaving of its steps with the events.  Then there is one moment such that everything on the screen, the
    session, the result and all files but the one with the time of the last check are the same as if the whole
    check had happened at that moment, or not at all as long as it is not over. *)
Theorem C103_check_at_one_moment : forall C U tz Y dir center path w h world m cfg g0 Oc ts g r,
  load_config Y (w_disk world) dir = Ok m -> is_available m = true -> get_config m = Ok cfg ->
  rooted dir = true -> stat (w_disk world) dir <> None -> has_meta (vault_in_use path m) = false ->
  gui_process C U tz Y dir center path w h [] world = (g0, Ok true) ->
  (forall e, In e (events_in ts) -> snd e <> Checked /\ forall d, snd e = Disk d -> stat d dir <> None) ->
  weave C U tz dir center ts Ask g0 = (g, r) ->
  exists g' w', g = in_world w' g' /\
    same_files_but (last_check_file :: place [] dir) (w_disk w') (w_disk (a_world (g_app g'))) /\
    ((play C U tz dir center (events_in ts) g0 = (g', end_of r) /\ forall more k, r = Ok (more, k) -> k <> Over) \/
     (exists ts1 ts2 k1 g1, ts = ts1 ++ Tick :: ts2 /\
        weave C U tz dir center ts1 Ask g0 = (g1, Ok (true, k1)) /\ k1 <> Over /\
        (forall more k, snd (weave C U tz dir center (ts1 ++ [Tick]) Ask g0) = Ok (more, k) -> k = Over) /\
        play C U tz dir center (events_in ts1 ++ (Oc, Checked) :: events_in ts2) g0 = (g', end_of r) /\
        forall more k, r = Ok (more, k) -> k = Over)).
Proof.
  intros C U tz Y dir center path w h world m cfg g0 Oc ts g r Hm Ha Hc Hroot Hd Hmeta Hg Hts Hw.
  destruct (begins _ _ _ _ _ _ _ _ _ _ _ _ _ Hm Ha Hc Hg) as (Ev & Hv & Ew & Ht & Hk).
  assert (F : Forall (fair_turn dir) ts).
  { clear -Hts. induction ts as [|[|Or i] ts IH]; constructor; cbn [fair_turn]; auto.
    - exact (Hts (Or, i) (or_introl eq_refl)).
    - apply IH. intros e He. apply Hts. now right. }
  assert (I0 : inv dir (vault_in_use path m) Ask g0 g0).
  { split; [split; [symmetry; apply swap_same|apply near_refl]|]. split; [exact Ev|]. split; [exact Ht|]. rewrite Ew. split; [exact Hd|]. split; [exact Hd|]. auto. }
  destruct (weave_run C U tz dir center Hroot (vault_in_use path m) Hv Hmeta Oc ts F Ask g0 g0) as (g' & (L1 & L2) & R); [discriminate|exact I0|].
  rewrite Hw in L1, L2, R. cbn [fst snd] in *. exists g', (gworld g). split; [exact L1|]. split; [destruct L2; repeat split; assumption|].
  rewrite events_inputs. destruct R as [R|[(ts1 & ts2 & k1 & h1 & -> & R1 & R2 & R3 & R4) R]]; [left; exact R|right].
  exists ts1, ts2, k1, h1. rewrite !events_inputs. split; [reflexivity|]. split; [exact R1|]. split; [exact R2|]. split; [exact R3|].
  unfold inputs, outcome in R4. rewrite Hw in R4. split; [exact R4|exact R].
Qed.
Print Assumptions C103_check_at_one_moment.

(** An open GUI meets the hypotheses; the verdict comes after the password was typed and before the menu. *)
Definition busy (i : input) : turn := Event forwards i.
Definition demo_weave (ts : list turn) : gui * res (bool * task) :=
  weave toy_crypto latin1 utc (b "/c") (fun t _ => t) ts Ask (fst (demo_gui (top_world [NetBody (release (b "1.4.0")) true]) [])).
Definition demo_turns : list turn :=
  [Tick; Tick; busy (Typed (b "freddy")); Tick; Tick; busy (Press KEnter); Tick; busy (Press KDown); Tick; busy (Press KEnter)].
Example C103_example :
  (exists m cfg, load_config toy_yaml (w_disk (top_world [NetBody (release (b "1.4.0")) true])) (b "/c") = Ok m /\ is_available m = true /\ get_config m = Ok cfg /\
     has_meta (vault_in_use [] m) = false) /\
  rooted (b "/c") = true /\ stat (w_disk (top_world [NetBody (release (b "1.4.0")) true])) (b "/c") = Some NDir /\
  snd (demo_gui (top_world [NetBody (release (b "1.4.0")) true]) []) = Ok true /\
  snd (demo_weave demo_turns) = Ok (true, Over) /\ ticks demo_turns = 6 /\
  shown (fst (demo_weave demo_turns)) VVersion = Some (b "1Pass v1.3.1 (new version is available: v1.4.0 - run '1pass update' to upgrade)") /\
  shown (fst (demo_weave demo_turns)) VItems <> None.
Proof.
  split.
  { assert (E : match load_config toy_yaml (w_disk (top_world [NetBody (release (b "1.4.0")) true])) (b "/c") with Ok m => (is_available m && match get_config m with Ok _ => negb (has_meta (vault_in_use [] m)) | _ => false end)%bool | _ => false end = true) by (vm_compute; reflexivity).
    destruct (load_config toy_yaml (w_disk (top_world [NetBody (release (b "1.4.0")) true])) (b "/c")) as [m| |]; try discriminate.
    apply andb_true_iff in E. destruct E as [E1 E2]. destruct (get_config m) as [cfg| |] eqn:Eg; try discriminate. apply negb_true_iff in E2. exists m, cfg. auto. }
  do 6 (split; [vm_compute; reflexivity|]). vm_compute. discriminate.
Qed.
