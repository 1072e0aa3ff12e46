(** The terminal GUI: 1pass-app/gui and 1pass-term/control/gocui/guicontrol.go, on a model of
    github.com/jroimartin/gocui v0.4 (not part of /repo).

    Simplifications: a view is its inner size, its text, cursor and origin; colours, titles, frames
    and the order in which views overlap are left out; text is what was written, without the
    interpretation of escape sequences.  The library's editor is left out: typing in the password
    prompt may turn its text into any text.  The layout runs after every single event (the library
    may handle several waiting events first).  The update check is one step at any time after the
    start (the code runs it in a goroutine without synchronisation). *)
From Verif Require Import Base Utf8 GoStrings Json Civil Crypto Path Fs Domain Repos Session
  World Config Updater Cli.
Open Scope st_scope.

(** The names of the views: "verWidget", "help", "1pass", "itemsWidget", "detailsWidget",
    "passPrompt", "errDialog". *)
Inductive vname := VVersion | VHelp | VMenu | VItems | VDetails | VPrompt | VError.

Definition vname_eqb (x y : vname) : bool :=
  match x, y with
  | VVersion, VVersion | VHelp, VHelp | VMenu, VMenu | VItems, VItems
  | VDetails, VDetails | VPrompt, VPrompt | VError, VError => true
  | _, _ => false
  end.

Record view := MkView {
  v_w : Z; v_h : Z;
  v_text : bytes;
  v_cx : Z; v_cy : Z;
  v_ox : Z; v_oy : Z;
}.

(** gocui.Gui: the size of the terminal, the views, the name of the current view.  (DeleteView
    leaves the pointer to the current view alone; the program then always selects another one.) *)
Record screen_ui := MkUi {
  ui_w : Z; ui_h : Z;
  ui_views : vname -> option view;
  ui_cur : vname;
}.

Definition put_view (n : vname) (v : option view) (u : screen_ui) : screen_ui :=
  MkUi (ui_w u) (ui_h u) (fun m => if vname_eqb m n then v else ui_views u m) (ui_cur u).

(** The objects of the GUI: 1passwidget.go:23-34, itemswidget.go:21-31, detailswidget.go:21-28,
    errdialog.go:13-18, helpwidget.go:19-23, and whether the goroutine of versionwidget.go:57 has
    been started and not finished. *)
Record gui := MkGui {
  g_app : app;
  g_ui : screen_ui;
  g_vault : bytes;
  g_cats : list (option category);
  g_menu_idx : Z;
  g_rows : list simple_item;
  g_row_idx : Z;
  g_item : option item;
  g_help : bytes;
  g_error : option goerr;
  g_checking : bool;
}.

Definition set_app x g := MkGui x (g_ui g) (g_vault g) (g_cats g) (g_menu_idx g) (g_rows g) (g_row_idx g) (g_item g) (g_help g) (g_error g) (g_checking g).
Definition set_ui x g := MkGui (g_app g) x (g_vault g) (g_cats g) (g_menu_idx g) (g_rows g) (g_row_idx g) (g_item g) (g_help g) (g_error g) (g_checking g).
Definition set_cats x g := MkGui (g_app g) (g_ui g) (g_vault g) x (g_menu_idx g) (g_rows g) (g_row_idx g) (g_item g) (g_help g) (g_error g) (g_checking g).
Definition set_menu_idx x g := MkGui (g_app g) (g_ui g) (g_vault g) (g_cats g) x (g_rows g) (g_row_idx g) (g_item g) (g_help g) (g_error g) (g_checking g).
Definition set_rows x g := MkGui (g_app g) (g_ui g) (g_vault g) (g_cats g) (g_menu_idx g) x (g_row_idx g) (g_item g) (g_help g) (g_error g) (g_checking g).
Definition set_row_idx x g := MkGui (g_app g) (g_ui g) (g_vault g) (g_cats g) (g_menu_idx g) (g_rows g) x (g_item g) (g_help g) (g_error g) (g_checking g).
Definition set_item x g := MkGui (g_app g) (g_ui g) (g_vault g) (g_cats g) (g_menu_idx g) (g_rows g) (g_row_idx g) x (g_help g) (g_error g) (g_checking g).
Definition set_help x g := MkGui (g_app g) (g_ui g) (g_vault g) (g_cats g) (g_menu_idx g) (g_rows g) (g_row_idx g) (g_item g) x (g_error g) (g_checking g).
Definition set_error x g := MkGui (g_app g) (g_ui g) (g_vault g) (g_cats g) (g_menu_idx g) (g_rows g) (g_row_idx g) (g_item g) (g_help g) x (g_checking g).
Definition set_checking x g := MkGui (g_app g) (g_ui g) (g_vault g) (g_cats g) (g_menu_idx g) (g_rows g) (g_row_idx g) (g_item g) (g_help g) (g_error g) x.

(** Code of the GUI.  A Go error is the answer false. *)
Definition gact (A : Type) : Type := st gui A.

Definition get {A} (f : gui -> A) : gact A := fun g => (g, Ok (f g)).
Definition put (f : gui -> gui) : gact unit := fun g => (f g, Ok tt).

(** [if err := ...; err != nil { return err }] *)
Definition check (m : gact bool) (k : gact bool) : gact bool :=
  ok <- m ;; if ok then k else ret false.
Notation "e ;;? k" := (check e k) (at level 61, right associativity) : st_scope.

Definition on_app {A} (m : act A) : gact A := fun g =>
  let (a, r) := m (g_app g) in (set_app a g, r).

(** gocui: Gui.View and a change of what was found. *)
Definition on_view (n : vname) (f : view -> view) : gact bool := fun g =>
  match ui_views (g_ui g) n with
  | Some v => (set_ui (put_view n (Some (f v)) (g_ui g)) g, Ok true)
  | None => (g, Ok false)
  end.

Inductive made := Bad | Old | New.

(** gocui: Gui.SetView *)
Definition set_view (n : vname) (x0 y0 x1 y1 : Z) : gact made := fun g =>
  if (x1 <=? x0)%Z || (y1 <=? y0)%Z then (g, Ok Bad)
  else
    let w := (x1 - x0 - 1)%Z in
    let h := (y1 - y0 - 1)%Z in
    match ui_views (g_ui g) n with
    | Some v => (set_ui (put_view n (Some (MkView w h (v_text v) (v_cx v) (v_cy v) (v_ox v) (v_oy v))) (g_ui g)) g, Ok Old)
    | None => (set_ui (put_view n (Some (MkView w h [] 0 0 0 0)) (g_ui g)) g, Ok New)
    end.

(** gocui: Gui.DeleteView *)
Definition delete_view (n : vname) : gact bool := fun g =>
  match ui_views (g_ui g) n with
  | Some _ => (set_ui (put_view n None (g_ui g)) g, Ok true)
  | None => (g, Ok false)
  end.

(** gocui: Gui.SetCurrentView *)
Definition set_current (n : vname) : gact bool := fun g =>
  match ui_views (g_ui g) n with
  | Some _ => (set_ui (MkUi (ui_w (g_ui g)) (ui_h (g_ui g)) (ui_views (g_ui g)) n) g, Ok true)
  | None => (g, Ok false)
  end.

(** gocui: View.SetCursor and View.SetOrigin, with their errors. *)
Definition set_cursor (x y : Z) (v : view) : option view :=
  if (x <? 0)%Z || (v_w v <=? x)%Z || (y <? 0)%Z || (v_h v <=? y)%Z then None
  else Some (MkView (v_w v) (v_h v) (v_text v) x y (v_ox v) (v_oy v)).
Definition set_origin (x y : Z) (v : view) : option view :=
  if (x <? 0)%Z || (y <? 0)%Z then None
  else Some (MkView (v_w v) (v_h v) (v_text v) (v_cx v) (v_cy v) x y).

(** gocui: View.Clear and writing to a view. *)
Definition clear (v : view) : view := MkView (v_w v) (v_h v) [] (v_cx v) (v_cy v) (v_ox v) (v_oy v).
Definition write (t : bytes) (v : view) : view := MkView (v_w v) (v_h v) (v_text v ++ t) (v_cx v) (v_cy v) (v_ox v) (v_oy v).

(** A handler's work on its view: None is an error. *)
Definition try_view (n : vname) (f : view -> option view) : gact bool := fun g =>
  match ui_views (g_ui g) n with
  | Some v =>
      match f v with
      | Some v' => (set_ui (put_view n (Some v') (g_ui g)) g, Ok true)
      | None => (g, Ok false)
      end
  | None => (g, Ok false)
  end.

(** 1passwidget.go:68-77, itemswidget.go:52-60 *)
Definition line_down (v : view) : option view :=
  match set_cursor (v_cx v) (v_cy v + 1) v with
  | Some v' => Some v'
  | None => set_origin (v_ox v) (v_oy v + 1) v
  end.

(** 1passwidget.go:86-94, itemswidget.go:74-82 *)
Definition line_up (v : view) : option view :=
  match set_cursor (v_cx v) (v_cy v - 1) v with
  | Some v' => Some v'
  | None => if (0 <? v_oy v)%Z then set_origin (v_ox v) (v_oy v - 1) v else Some v
  end.

(** 1passwidget.go:133-147, itemswidget.go:127-140 *)
Definition reset_cursor (v : view) : option view :=
  match set_cursor (v_cx v) 0 v with
  | Some v' => Some v'
  | None => if (0 <? v_oy v)%Z then set_origin (v_ox v) 0 v else Some v
  end.

(** detailswidget.go:40-58: both calls use the origin read at the start. *)
Definition reset_origin (v : view) : option view :=
  match (if (0 <? v_ox v)%Z then set_origin 0 (v_oy v) v else Some v) with
  | Some v' => if (0 <? v_oy v)%Z then set_origin (v_ox v) 0 v' else Some v'
  | None => None
  end.

Definition join_lines (ls : list bytes) : bytes := concat (map (fun l => l ++ nl) ls).

(** helpwidget.go:14-17, 1passwidget.go:18-21, itemswidget.go:15-19, detailswidget.go:15-19; the
    lines of a text are kept apart by the newline that splits them. *)
Definition main_help : list bytes := [b "Exit: CTRL+Q"; b "Lock: CTRL+L"].
Definition menu_help : bytes := b "Navigate up/down: k/j" ++ nl ++ b "Open: ENTER".
Definition items_help : bytes := b "Navigate up/down: k/j" ++ nl ++ b "Go back: Q" ++ nl ++ b "Reveal item: TAB".
Definition details_help : bytes := b "Scroll up/down: k/j" ++ nl ++ b "Scroll left/right: h/l" ++ nl ++ b "Cover item: TAB".
Definition four_tabs : bytes := repeat (ascii_of_nat 9) 4.

(** helpwidget.go:41-62: the lines with four tabs between them. *)
Definition help_text (help : bytes) : bytes :=
  concat (map (fun l => l ++ four_tabs) main_help)
  ++ concat (map (fun c => if Ascii.eqb c (ascii_of_nat 10) then four_tabs else [c]) help).

(** helpwidget.go:33-67 *)
Definition help_update : gact bool :=
  h <- get g_help ;;
  on_view VHelp (fun v => write (help_text h) (clear v)).

(** The help of a widget: [helpWidget.help = ...; helpWidget.update(ui)]. *)
Definition show_help (h : bytes) : gact bool :=
  put (set_help h) ;;;
  help_update.

Section Gui.
Variable C : crypto.
Variable U : unicode.
Variable tz : Z -> Z.
Variable O : oracles.
Variable dir : bytes.
(** text.AlignCenter.Apply of go-pretty *)
Variable center : bytes -> Z -> bytes.

(** detailswidget.go:142-216 *)
Definition details_lines (mask : bool) (i : item) : list bytes :=
  [ cat_name (it_cat i); dashes; it_title i; [];
    b "Updated: " ++ format_time tz (it_updated i); b "Created: " ++ format_time tz (it_created i);
    b "Trashed: " ++ bool_text (it_trashed i) ]
  ++ (match it_url i with [] => [] | _ => [b "URL: " ++ it_url i] end)
  ++ (match it_sections i with
      | [] => []
      | _ =>
          flat_map (fun s =>
            [ [] ] ++ (match sec_title s with [] => [] | _ => [sec_title s] end) ++ [dashes]
            ++ map (fun f => fld_name f ++ b ": " ++ (if mask then stars else fld_value f)) (sec_fields s))
            (it_sections i)
          ++ [ [] ]
      end)
  ++ (match it_notes i with
      | [] => []
      | _ =>
          (match it_sections i with [] => [ [] ] | _ => [] end)
          ++ [ b "Notes"; dashes; (if mask then stars else it_notes i) ]
      end).

(** detailswidget.go:130-219 *)
Definition details_update (mask : bool) : gact bool :=
  i <- get g_item ;;
  try_view VDetails (fun v => reset_origin (clear v)) ;;?
  match i with
  | Some i => on_view VDetails (write (join_lines (details_lines mask i)))
  | None => ret true
  end.

(** detailswidget.go:265-281; int(0.5*float32(maxX-2)+1), exact for the sizes of terminals. *)
Definition details_layout : gact bool :=
  u <- get g_ui ;;
  m <- set_view VDetails ((ui_w u - 2) ÷ 2 + 1) 4 (ui_w u - 2) (ui_h u - 5) ;;
  ret (match m with Bad => false | _ => true end).

(** detailswidget.go:112-128 *)
Definition cover : gact bool :=
  details_update true ;;?
  set_current VItems ;;?
  show_help items_help.

(** detailswidget.go:60-110 *)
Definition scroll_down (v : view) := set_origin (v_ox v) (v_oy v + 1) v.
Definition scroll_up (v : view) := if (0 <? v_oy v)%Z then set_origin (v_ox v) (v_oy v - 1) v else Some v.
Definition scroll_right (v : view) := set_origin (v_ox v + 1) (v_oy v) v.
Definition scroll_left (v : view) := if (0 <? v_ox v)%Z then set_origin (v_ox v - 1) (v_oy v) v else Some v.

(** [iw.guiControl.GetItem(iw.items[iw.currIdx])]: itemswidget.go:143-144, 154-155; an index
    outside the list is a panic. *)
Definition pick_item : gact unit :=
  rows <- get g_rows ;;
  idx <- get g_row_idx ;;
  match (if (idx <? 0)%Z then None else nth_error rows (Z.to_nat idx)) with
  | None => lift Panic
  | Some row => s <- get (fun g => a_vault (g_app g)) ;;
                put (set_item (get_item (s_uid row) (s_trashed row) s))
  end.

(** itemswidget.go:142-151 *)
Definition show_overview : gact bool := pick_item ;;; details_update true.

(** itemswidget.go:153-172 *)
Definition reveal : gact bool :=
  pick_item ;;;
  details_update false ;;?
  set_current VDetails ;;?
  show_help details_help.

(** itemswidget.go:174-209 *)
Definition items_update : gact bool :=
  v <- get (fun g => ui_views (g_ui g) VItems) ;;
  match v with
  | None => ret false
  | Some _ =>
      put (set_row_idx (-1)%Z) ;;;
      try_view VItems reset_cursor ;;?
      on_view VItems clear ;;?
      rows <- get g_rows ;;
      match rows with
      | [] => ret true
      | _ =>
          on_view VItems (write (join_lines (map (fun r => match s_title r with [] => b "<NO TITLE>" | t => t end) rows))) ;;?
          put (set_row_idx 0%Z) ;;;
          show_overview
      end
  end.

(** itemswidget.go:255-288: the error of [iw.update(ui)] is dropped. *)
Definition items_layout : gact bool :=
  u <- get g_ui ;;
  m <- set_view VItems 1 4 ((ui_w u - 2) ÷ 2) (ui_h u - 5) ;;
  match m with
  | Bad => ret false
  | Old => ret true
  | New =>
      items_update ;;;
      details_layout ;;?
      set_current VItems ;;?
      show_help items_help
  end.

(** itemswidget.go:50-91 *)
Definition row_down : gact bool :=
  rows <- get g_rows ;;
  idx <- get g_row_idx ;;
  if negb (idx =? -1)%Z && (idx <? Z.of_nat (length rows) - 1)%Z then
    try_view VItems line_down ;;?
    put (set_row_idx (idx + 1)%Z) ;;;
    show_overview
  else ret true.
Definition row_up : gact bool :=
  idx <- get g_row_idx ;;
  if (0 <? idx)%Z then
    try_view VItems line_up ;;?
    put (set_row_idx (idx - 1)%Z) ;;;
    show_overview
  else ret true.

(** itemswidget.go:93-107 *)
Definition go_back : gact bool :=
  delete_view VDetails ;;?
  delete_view VItems ;;?
  set_current VMenu.

(** passprompt.go:34-54 *)
Definition prompt_layout : gact bool :=
  u <- get g_ui ;;
  m <- set_view VPrompt (ui_w u ÷ 2 - 30) (ui_h u ÷ 2 - 1) (ui_w u ÷ 2 + 30) (ui_h u ÷ 2 + 1) ;;
  match m with
  | Bad => ret false
  | Old => ret true
  | New => set_current VPrompt
  end.

(** errdialog.go:36-60 *)
Definition error_layout : gact bool :=
  u <- get g_ui ;;
  e <- get g_error ;;
  m <- set_view VError (ui_w u ÷ 2 - 30) (ui_h u ÷ 2 - 1) (ui_w u ÷ 2 + 30) (ui_h u ÷ 2 + 1) ;;
  match m with
  | Bad => ret false
  | Old => ret true
  | New =>
      set_current VError ;;?
      on_view VError (write (match e with Some err => err_text err | None => [] end))
  end.

Definition count_label (name : bytes) (n : nat) : bytes := name ++ b " (" ++ itoa (Z.of_nat n) ++ b ")".

(** 1passwidget.go:227-236: the lines and the categories appended. *)
Definition cat_entries (s : state) (cats : list category) : list (category * nat) :=
  filter (fun e => negb (Nat.eqb (snd e) 0)) (map (fun c => (c, count_items (Some c) false s)) cats).

(** 1passwidget.go:205-257: the shared category list is sorted in place. *)
Definition menu_update : gact bool :=
  s <- get (fun g => a_vault (g_app g)) ;;
  if is_unlocked s then
    u <- get g_ui ;;
    let w := (ui_w u - 1)%Z in
    match ui_views u VMenu with
    | None => ret false
    | Some _ =>
        let all := count_items None false s in
        (if Nat.eqb all 0 then ret true
         else
           cats <- on_app (on_vault (fun _ s => let r := sort_cats (st_reg s) in
                                                Ok (MkState (st_profile s) (st_items s) (st_keys s) r, r))) ;;
           let es := cat_entries s cats in
           put (fun g => set_cats (g_cats g ++ None :: map (fun e => Some (fst e)) es) g) ;;;
           on_view VMenu (write (join_lines (center (count_label (b "All") all) w
             :: map (fun e => center (count_label (cat_name (fst e)) (snd e)) w) es)))) ;;?
        let trashed := count_items None true s in
        (if Nat.eqb trashed 0 then ret true
         else
           put (fun g => set_cats (g_cats g ++ [None]) g) ;;;
           on_view VMenu (write (center (count_label (b "Trashed") trashed) w))) ;;?
        put (fun g => match g_cats g with [] => g | _ => set_menu_idx 0%Z g end) ;;;
        ret true
    end
  else prompt_layout.

(** 1passwidget.go:54-64 *)
Definition close_error : gact bool :=
  delete_view VError ;;?
  menu_update.

(** 1passwidget.go:66-99 *)
Definition menu_down : gact bool :=
  cats <- get g_cats ;;
  idx <- get g_menu_idx ;;
  if negb (idx =? -1)%Z && (idx <? Z.of_nat (length cats) - 1)%Z then
    try_view VMenu line_down ;;?
    put (set_menu_idx (idx + 1)%Z) ;;;
    ret true
  else ret true.
Definition menu_up : gact bool :=
  idx <- get g_menu_idx ;;
  if (0 <? idx)%Z then
    try_view VMenu line_up ;;?
    put (set_menu_idx (idx - 1)%Z) ;;;
    ret true
  else ret true.

(** 1passwidget.go:101-123 *)
Definition menu_lock : gact bool :=
  put (fun g => set_menu_idx (-1)%Z (set_cats [] g)) ;;;
  on_app (on_vault (fun _ s => Ok (lock s, tt))) ;;;
  try_view VMenu reset_cursor ;;?
  on_view VMenu clear ;;?
  menu_update ;;?
  show_help menu_help.

(** itemswidget.go:109-125 *)
Definition items_lock : gact bool := go_back ;;? menu_lock.

(** 1passwidget.go:149-173; ViewBuffer without the surrounding white space. *)
Definition enter_password : gact bool :=
  v <- get (fun g => ui_views (g_ui g) VPrompt) ;;
  let password := match v with Some v => trim_space (v_text v) | None => [] end in
  delete_view VPrompt ;;?
  vault <- get g_vault ;;
  e <- on_app (on_vault (fun D s => unlock C U tz O D vault password s)) ;;
  match e with
  | Some err =>
      put (set_error (Some err)) ;;;
      error_layout
  | None =>
      set_current VMenu ;;?
      menu_update
  end.

(** 1passwidget.go:183-193.  The index lies within the list, see GuiProof.v. *)
Definition rows_of (cats : list (option category)) (idx : Z) (s : state) : list simple_item :=
  if Nat.eqb (length cats) 1 then get_items U O None [] true s
  else if (idx =? Z.of_nat (length cats) - 1)%Z then get_items U O None [] true s
  else if (idx =? 0)%Z then get_items U O None [] false s
  else get_items U O (nth (Z.to_nat idx) cats None) [] false s.

(** 1passwidget.go:175-203 *)
Definition open_entry : gact bool :=
  idx <- get g_menu_idx ;;
  if (idx =? -1)%Z then ret true
  else
    items_layout ;;?
    cats <- get g_cats ;;
    s <- get (fun g => a_vault (g_app g)) ;;
    put (set_rows (rows_of cats idx s)) ;;;
    items_update.

(** 1passwidget.go:307-337 *)
Definition menu_layout : gact bool :=
  u <- get g_ui ;;
  m <- set_view VMenu 0 3 (ui_w u - 1) (ui_h u - 4) ;;
  match m with
  | Bad => ret false
  | Old => ret true
  | New =>
      set_current VMenu ;;?
      menu_update ;;?
      show_help menu_help
  end.

(** helpwidget.go:69-83 *)
Definition help_layout : gact bool :=
  u <- get g_ui ;;
  m <- set_view VHelp 0 (ui_h u - 3) (ui_w u - 1) (ui_h u - 1) ;;
  match m with
  | Bad => ret false
  | Old => ret true
  | New => help_update ;;; ret true
  end.

(** versionwidget.go:46-61 *)
Definition version_layout : gact bool :=
  u <- get g_ui ;;
  m <- set_view VVersion 0 0 (ui_w u - 1) 2 ;;
  match m with
  | Bad => ret false
  | Old => ret true
  | New =>
      on_view VVersion (write (b "1Pass v" ++ app_version ++ b " ")) ;;?
      put (set_checking true) ;;;
      ret true
  end.

(** versionwidget.go:31-44 with guicontrol.go:28-30, where the check is forced. *)
Definition version_update : gact unit :=
  r <- on_app (m <- the_conf ;; on_world (facade_check m true dir)) ;;
  on_view VVersion (write (match r with
    | Val info => b "(new version is available: v" ++ ui_version info ++ b " - run '1pass update' to upgrade)"
    | Err ErrNoUpdate => b "(" ++ err_text ErrNoUpdate ++ b ")"
    | Err _ => b "(update check failed - run '1pass update' for more info)"
    end)) ;;;
  put (set_checking false).

(** gocui: the managers in the order of gocui.go:52. *)
Definition layout : gact bool := version_layout ;;? help_layout ;;? menu_layout.

(** What happens to the GUI: a bound key, by its meaning where it is bound (j and the down arrow
    are KDown, k and up KUp, h and left KLeft, l and right KRight); other typing, which leaves
    [text] in an editable view; a new size; the end of the update check; another process changing
    files. *)
Inductive key := KUp | KDown | KLeft | KRight | KEnter | KTab | KBack | KLock | KQuit.
Inductive input :=
| Press (k : key)
| Typed (text : bytes)
| Resize (w h : Z)
| Checked
| Disk (d : disk).

(** The key bindings: 1passwidget.go:259-305, itemswidget.go:211-253, detailswidget.go:221-263,
    passprompt.go:26-32, errdialog.go:28-34. *)
Definition on_key (cur : vname) (k : key) : gact bool :=
  match cur, k with
  | VMenu, KLock => menu_lock
  | VMenu, KDown => menu_down
  | VMenu, KUp => menu_up
  | VMenu, KRight => open_entry
  | VMenu, KEnter => open_entry
  | VItems, KLock => items_lock
  | VItems, KLeft => go_back
  | VItems, KBack => go_back
  | VItems, KDown => row_down
  | VItems, KUp => row_up
  | VItems, KTab => reveal
  | VDetails, KLock => items_lock
  | VDetails, KDown => try_view VDetails scroll_down
  | VDetails, KUp => try_view VDetails scroll_up
  | VDetails, KRight => try_view VDetails scroll_right
  | VDetails, KLeft => try_view VDetails scroll_left
  | VDetails, KTab => cover
  | VPrompt, KEnter => enter_password
  | VError, KEnter => close_error
  | _, _ => ret true
  end.

Definition handle (i : input) : gact bool :=
  match i with
  | Press k => cur <- get (fun g => ui_cur (g_ui g)) ;; on_key cur k
  | Typed t =>
      cur <- get (fun g => ui_cur (g_ui g)) ;;
      match cur with
      | VPrompt => on_view VPrompt (fun v => write t (clear v))
      | _ => ret true
      end
  | Resize w h => put (fun g => set_ui (MkUi w h (ui_views (g_ui g)) (ui_cur (g_ui g))) g) ;;; ret true
  | Checked => c <- get g_checking ;; if c then version_update ;;; ret true else ret true
  | Disk d => put (fun g => let a := g_app g in set_app (MkApp (set_disk d (a_world a)) (a_conf a) (a_vault a)) g) ;;; ret true
  end.

(** gocui: MainLoop, one event.  CTRL+Q ends the loop without an error; log.Fatalln
    (gocui.go:61-63) after any other error.  The answer says whether the loop goes on. *)
Definition gui_step (i : input) : gact bool :=
  match i with
  | Press KQuit => ret false
  | _ =>
      ok <- (handle i ;;? layout) ;;
      if ok then ret true else os_exit 1
  end.

(** guicontrol.go:56-71 and gocui.go:32-50: the vault and the empty screen, if a terminal of that
    size is there. *)
Definition blank_gui (a : app) (vault : bytes) (w h : Z) : gui :=
  MkGui a (MkUi w h (fun _ => None) VMenu) vault [] (-1) [] (-1) None [] None false.

Definition pick_vault (path : bytes) : act bytes :=
  vault <- (match path with
            | [] => c <- config_now ;; ret (cfg_vault c)
            | _ => ret path
            end) ;;
  e <- on_vault (fun D s => validate D vault s) ;;
  match e with
  | Some err => say (err_text err) ;;; os_exit 1
  | None => ret vault
  end.

(** gocui.go:32-64: the screen after the first layout. *)
Definition start_gui (path : bytes) (w h : Z) (a : app) : gui * res bool :=
  match pick_vault path a with
  | (a', Ok vault) =>
      bind layout (fun ok => if ok then ret true else os_exit 1) (blank_gui a' vault w h)
  | (a', Panic) => (blank_gui a' [] w h, Panic)
  | (a', Exit n) => (blank_gui a' [] w h, Exit n)
  end.

End Gui.

(** A run of events, each with the choices of the runtime (the order of maps) at that time. *)
Fixpoint play (C : crypto) (U : unicode) (tz : Z -> Z) (dir : bytes) (center : bytes -> Z -> bytes)
  (es : list (oracles * input)) : gact bool :=
  match es with
  | [] => ret true
  | (Or, i) :: es' =>
      more <- gui_step C U tz Or dir center i ;;
      if more then play C U tz dir center es' else ret false
  end.

(** cobra.go:37-40: the program without a command. *)
Definition gui_process (C : crypto) (U : unicode) (tz : Z -> Z) (Y : yaml) (dir : bytes)
  (center : bytes -> Z -> bytes) (path : bytes) (w h : Z) (es : list (oracles * input)) (world : world)
  : gui * res bool :=
  match load_config Y (w_disk world) dir with
  | Ok m =>
      match first_run U Y dir (MkApp world m init) with
      | (a, Ok _) => match start_gui center path w h a with
                     | (g, Ok _) => play C U tz dir center es g
                     | x => x
                     end
      | (a, Panic) => (blank_gui a [] w h, Panic)
      | (a, Exit n) => (blank_gui a [] w h, Exit n)
      end
  | Panic => (blank_gui (MkApp world None init) [] w h, Panic)
  | Exit n => (blank_gui (MkApp world None init) [] w h, Exit n)
  end.
