(** What the GUI should look like, in terms of the vault facade: the menu, the item list, the
    text of an item. *)
From Verif Require Import Base Utf8 GoStrings Json Civil Crypto Path Fs Domain Spec_Domain Repos Session
  World Config Updater Cli Gui.

Definition session (g : gui) : state := a_vault (g_app g).
Definition view_of (g : gui) (n : vname) : option view := ui_views (g_ui g) n.
(** The text in a view that is on the screen. *)
Definition shown (g : gui) (n : vname) : option bytes := option_map v_text (view_of g n).
Definition current (g : gui) : vname := ui_cur (g_ui g).

(** The entries of the menu: all items, a category, the trash. *)
Inductive entry := All | Of (c : category) | Trash.

Definition entry_name (e : entry) : bytes :=
  match e with All => b "All" | Of c => cat_name c | Trash => b "Trashed" end.

(** The items an entry stands for. *)
Definition entry_category (e : entry) : option category := match e with Of c => Some c | _ => None end.
Definition entry_trashed (e : entry) : bool := match e with Trash => true | _ => false end.
Definition entry_count (s : state) (e : entry) : nat := count_items (entry_category e) (entry_trashed e) s.

(** All entries in order, and those that are shown: the ones that stand for an item. *)
Definition all_entries : list entry :=
  All :: map (fun c => Of (Cat (fst c) (snd c))) published ++ [Trash].
Definition menu (s : state) : list entry := filter (fun e => negb (Nat.eqb (entry_count s e) 0)) all_entries.

Definition entry_line (center : bytes -> Z -> bytes) (w : Z) (s : state) (e : entry) : bytes :=
  center (entry_name e ++ b " (" ++ itoa (Z.of_nat (entry_count s e)) ++ b ")") w
  ++ match e with Trash => [] | _ => newline end.

(** The line of a row in the item list. *)
Definition row_line (r : simple_item) : bytes :=
  (match s_title r with [] => b "<NO TITLE>" | t => t end) ++ newline.

(** What was typed as a command line would see it. *)
Definition typed (g : gui) : bytes := match shown g VPrompt with Some t => t | None => [] end.

(** ** In terms of the items *)

Definition belongs (e : entry) (i : item) : bool :=
  match e with
  | All => negb (it_trashed i)
  | Of c => negb (it_trashed i) && (bytes_eqb (cat_code (it_cat i)) (cat_code c) && bytes_eqb (cat_name (it_cat i)) (cat_name c))
  | Trash => it_trashed i
  end.

(** The entries that stand for at least one of the items. *)
Definition entries_for (items : list item) : list entry := filter (fun e => existsb (belongs e) items) all_entries.

(** The text of the menu: a line for each entry with the number of its items; the last line ends
    without a newline when it is the trash. *)
Definition menu_lines (center : bytes -> Z -> bytes) (w : Z) (items : list item) : bytes :=
  concat (map (fun e =>
    center (entry_name e ++ b " (" ++ itoa (Z.of_nat (length (filter (belongs e) items))) ++ b ")") w
    ++ match e with Trash => [] | _ => newline end) (entries_for items)).

(** The GUI after any events since the start of the program: any settings, any vault, any keys, any
    choices of the runtime, any changes of the files in between. *)
Definition running (C : crypto) (U : unicode) (tz : Z -> Z) (Y : yaml) (dir : bytes)
  (center : bytes -> Z -> bytes) (g : gui) : Prop :=
  exists path w h es world, Forall (fun e => oracles_ok (fst e)) es /\
    gui_process C U tz Y dir center path w h es world = (g, Ok true).

(** The keys a view answers to, in the order of the help line, which keeps them apart by four tabs. *)
Definition keys_anywhere : list bytes := [b "Exit: CTRL+Q"; b "Lock: CTRL+L"].
Definition keys_in_menu : list bytes := [b "Navigate up/down: k/j"; b "Open: ENTER"].
Definition keys_in_list : list bytes := [b "Navigate up/down: k/j"; b "Go back: Q"; b "Reveal item: TAB"].
Definition keys_in_details : list bytes := [b "Scroll up/down: k/j"; b "Scroll left/right: h/l"; b "Cover item: TAB"].
Fixpoint tabbed (ks : list bytes) : bytes :=
  match ks with
  | [] => []
  | [k] => k
  | k :: ks => k ++ repeat (ascii_of_nat 9) 4 ++ tabbed ks
  end.
