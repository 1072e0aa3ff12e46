(** The commands: 1pass-term/control/cobra/clicontrol.go, 1pass-app/cli/cobra.go and
    1pass-app/main.go.  Parsing of flags by cobra is not modelled: a command comes with
    its flag values.  Tables are rendered by go-pretty, an oracle.  The password is read
    by golang.org/x/term, whose error the program ignores. *)
From Verif Require Import Base Utf8 GoStrings Json Civil Crypto Path Fs Domain Repos Session
  World Config Updater.
Open Scope st_scope.

(** The objects of a process: main.go:33-70. *)
Record app := MkApp {
  a_world : world;
  a_conf : cmap;
  a_vault : state;
}.

Definition act (A : Type) : Type := st app A.

Definition on_world {A} (m : io A) : act A := fun a =>
  let (w, r) := m (a_world a) in (MkApp w (a_conf a) (a_vault a), r).

Definition the_conf : act cmap := fun a => (a, Ok (a_conf a)).

(** A call of the vault facade, which reads the disk. *)
Definition on_vault {A} (f : disk -> state -> res (state * A)) : act A := fun a =>
  match f (w_disk (a_world a)) (a_vault a) with
  | Ok (s, x) => (MkApp (a_world a) (a_conf a) s, Ok x)
  | Panic => (a, Panic)
  | Exit n => (a, Exit n)
  end.

Definition say (text : bytes) : act unit := on_world (println text).

Definition bool_text (v : bool) : bytes := if v then b "true" else b "false".

(** Time.Format("2006-01-02 15:04:05") *)
Definition format_time (tz : Z -> Z) (unix : Z) : bytes :=
  let s := (uint64 (unix + tz unix + abs_epoch_days * 86400) mod 86400)%Z in
  format_date tz unix ++ " "%char ::
  pad_int 2 (s / 3600) ++ ":"%char :: pad_int 2 (s mod 3600 / 60) ++ ":"%char :: pad_int 2 (s mod 60).

Definition dashes : bytes := b "------------------------------".
Definition stars : bytes := b "**********".
Definition nl : bytes := newline.

Section Cli.
Variable C : crypto.
Variable U : unicode.
Variable tz : Z -> Z.
Variable O : oracles.
Variable Y : yaml.
Variable T : unpacker.
Variable render : list (list bytes) -> bytes.
Variable dir : bytes.

Definition config_now : act config := m <- the_conf ;; lift (get_config m).

(** clicontrol.go:37-49 *)
Definition cli_check : act unit :=
  c <- config_now ;;
  if cfg_notify c then
    m <- the_conf ;;
    r <- on_world (facade_check m false dir) ;;
    match r with
    | Val info =>
        say (b "New version of 1pass is available (current: " ++ app_version ++ b ", available: "
             ++ ui_version info ++ b "). Run 'sudo 1pass update' to upgrade." ++ nl)
    | Err _ => ret tt
    end
  else ret tt.

(** configfacade.go:30-32: SaveConfig *)
Definition save_now (c : config) : act unit := fun a =>
  match save_config Y dir c (a_conf a) (a_world a) with
  | (w, Ok m) => (MkApp w m (a_vault a), Ok tt)
  | (w, Panic) => (MkApp w (a_conf a) (a_vault a), Panic)
  | (w, Exit n) => (MkApp w (a_conf a) (a_vault a), Exit n)
  end.

Definition lv_text (o : option logicval) : res bytes :=
  match o with Some v => Ok (lv_name v) | None => Panic end.

(** clicontrol.go:51-100.  (If Save kills the process half way, the map the repository
    holds is of no consequence.) *)
Definition configure : act unit :=
  cli_check ;;;
  c <- config_now ;;
  say (b "Detailed configuration manual can be found online: https://github.com/mashmb/1pass#configuration") ;;;
  say (b "Configuring 1pass:") ;;;
  on_world (print (b "  1. Do you want to set default OPVault path? (" ++ lv_name lv_no ++ b ") [y - for yes/n - for no]: ")) ;;;
  confirm <- on_world scan ;;
  vault <- (match lv_from_name U confirm with
            | Val v =>
                if lv_value v then
                  on_world (print (b "     Default OPVault path (" ++ cfg_vault c ++ b "): ")) ;;;
                  s <- on_world scan ;;
                  ret (trim_space s)
                else ret (cfg_vault c)
            | Err _ => ret (cfg_vault c)
            end) ;;
  t <- lift (lv_text (lv_from_value (cfg_notify c))) ;;
  on_world (print (b "  2. Update notifications? (" ++ t ++ b ") [y - for yes/n - for no]: ")) ;;;
  ns <- on_world scan ;;
  let notify := match lv_from_name U ns with Val v => lv_value v | Err _ => cfg_notify c end in
  on_world (print (b "  3. Update HTTP timeout in seconds (" ++ itoa (cfg_timeout c) ++ b ") [1-30]: ")) ;;;
  ts <- on_world scan ;;
  let timeout := let (z, fine) := parse_int ts in
                 if fine && (1 <=? z)%Z && (z <=? 30)%Z then z else cfg_timeout c in
  on_world (print (b "  4. How often check for updates in days (" ++ itoa (cfg_period c) ++ b ") [0-365]: ")) ;;;
  ps <- on_world scan ;;
  let period := let (z, fine) := parse_int ps in
                if fine && (0 <=? z)%Z && (z <=? 365)%Z then z else cfg_period c in
  save_now (MkConfig timeout notify period vault) ;;;
  say (b "1pass configured").

(** clicontrol.go:102-109 *)
Definition first_run : act unit :=
  m <- the_conf ;;
  if is_available m then ret tt
  else
    say (b "Running 1pass for the first time? Let's configure it!") ;;;
    say [] ;;;
    configure ;;;
    say [].

Fixpoint number_rows (n : nat) (rows : list (list bytes)) : list (list bytes) :=
  match rows with
  | [] => []
  | r :: rows' => (itoa (Z.of_nat n) :: r) :: number_rows (S n) rows'
  end.

(** clicontrol.go:111-127 *)
Definition get_categories : act unit :=
  cli_check ;;;
  cats <- on_vault (fun _ s => let r := sort_cats (st_reg s) in
                               Ok (MkState (st_profile s) (st_items s) (st_keys s) r, r)) ;;
  say (render ([b "lp."; b "category"] :: number_rows 1 (map (fun c => [cat_name c]) cats))).

(** clicontrol.go:130-155, the same at 211-236 and 291-316. *)
Definition open_vault (path : bytes) : act unit :=
  first_run ;;;
  cli_check ;;;
  vault <- (match path with
            | [] => c <- config_now ;; ret (cfg_vault c)
            | _ => ret path
            end) ;;
  e <- on_vault (fun D s => validate D vault s) ;;
  match e with
  | Some err => say (err_text err) ;;; os_exit 1
  | None =>
      say (b "Password:") ;;;
      password <- on_world ask_password ;;
      e <- on_vault (fun D s => unlock C U tz O D vault password s) ;;
      match e with
      | Some err => say (err_text err) ;;; os_exit 1
      | None => ret tt
      end
  end.

(** What is printed, line by line: each string is one Println.  clicontrol.go:159-202
    with [mask] false, 240-283 with [mask] true. *)
Definition item_lines (mask : bool) (i : item) : list bytes :=
  [ []; cat_name (it_cat i); dashes; it_title i; [];
    b "Updated: " ++ format_time tz (it_updated i) ++ nl ++
    b "Created: " ++ format_time tz (it_created i) ++ nl ++
    b "Trashed: " ++ bool_text (it_trashed i) ]
  ++ (match it_url i with [] => [] | _ => [b "URL: " ++ it_url i] end)
  ++ (match it_sections i with
      | [] => []
      | _ =>
          flat_map (fun s =>
            [ [] ] ++ (match sec_title s with [] => [] | _ => [sec_title s] end) ++ [dashes]
            ++ map (fun f => fld_name f ++ b ": " ++ (if mask then stars else fld_value f)) (sec_fields s))
            (it_sections i)
          ++ [ [] ]
      end)
  ++ (match it_notes i with
      | [] => []
      | _ =>
          (match it_sections i with [] => [ [] ] | _ => [] end)
          ++ [ b "Notes"; dashes; (if mask then stars else it_notes i); [] ]
      end).

Fixpoint say_all (ls : list bytes) : act unit :=
  match ls with
  | [] => ret tt
  | l :: ls' => say l ;;; say_all ls'
  end.

(** clicontrol.go:129-208 with [mask] false, 210-288 with [mask] true. *)
Definition show_item (mask : bool) (path uid : bytes) (trashed : bool) : act unit :=
  open_vault path ;;;
  i <- on_vault (fun _ s => Ok (s, get_item uid trashed s)) ;;
  match i with
  | Some i => say_all (item_lines mask i)
  | None => say (b "Item with UID " ++ uid ++ b " do not exist")
  end.

(** clicontrol.go:290-347 *)
Definition list_items (path category title : bytes) (trashed : bool) : act unit :=
  open_vault path ;;;
  let category' := match category with [] => [] | _ => trim_space category end in
  r <- on_vault (fun _ s => Ok (s, match category with
                                   | [] => Val None
                                   | _ => match cat_from_name U (st_reg s) category' with
                                          | Val c => Val (Some c)
                                          | Err e => Err e
                                          end
                                   end)) ;;
  match r with
  | Err e => say (err_text e) ;;; os_exit 1
  | Val cat =>
      let title' := trim_space title in
      items <- on_vault (fun _ s => Ok (s, get_items U O cat title' trashed s)) ;;
      match items with
      | [] =>
          say (b "No results for search (category: " ++ category' ++ b ", name: " ++ title'
               ++ b ", trashed: " ++ bool_text trashed ++ b ")")
      | _ =>
          say (render ([b "lp."; b "uid"; b "category"; b "title"]
                 :: number_rows 1 (map (fun i => [s_uid i; cat_name (s_cat i); s_title i]) items)))
      end
  end.

(** clicontrol.go:374-400 *)
Definition stage_text (n : nat) : bytes :=
  (match n with
   | 1 => b "  Creating update cache..."
   | 2 => b "  Downloading new version..."
   | 3 => b "  Downloading checksums..."
   | 4 => b "  Extracting downloaded files..."
   | 5 => b "  Validating checksums..."
   | 6 => b "  Replacing binary..."
   | 7 => b "  Cleaning update cache..."
   | _ => b "  Unknown update stage"
   end) ++ nl.

(** clicontrol.go:349-408 *)
Definition run_update : act unit :=
  say (b "Checking for 1pass application updates...") ;;;
  m <- the_conf ;;
  r <- on_world (facade_check m true dir) ;;
  match r with
  | Err e => say (err_text e) ;;; os_exit 1
  | Val info =>
      say (b "New version of 1pass is available (" ++ ui_version info ++ b ")." ++ nl ++ nl
           ++ ui_changelog info ++ nl) ;;;
      on_world (print (b "Do you want to update now? (" ++ lv_name lv_no ++ b ") [y - for yes/n - for no]: ")) ;;;
      answer <- on_world scan ;;
      match lv_from_name U answer with
      | Val v =>
          if lv_value v then
            say (b "Updating 1pass application from version " ++ app_version ++ b " to "
                 ++ ui_version info ++ b "...") ;;;
            e <- on_world (facade_update C T stage_text m) ;;
            match e with
            | Some err => say (err_text err) ;;; os_exit 1
            | None => say (b "1pass application updated to version " ++ ui_version info)
            end
          else say (b "Aborting update...") ;;; os_exit 1
      | Err _ => say (b "Aborting update...") ;;; os_exit 1
      end
  end.

(** cobra.go:33-140; the command without a name starts the GUI after [first_run]. *)
Inductive command :=
| CmdUpdate
| CmdConfigure
| CmdCategories
| CmdList (vault category name : bytes) (trashed : bool)
| CmdOverview (vault uid : bytes) (trashed : bool)
| CmdDetails (vault uid : bytes) (trashed : bool)
| CmdVersion.

Definition run_command (c : command) : act unit :=
  match c with
  | CmdUpdate => run_update
  | CmdConfigure => configure
  | CmdCategories => get_categories
  | CmdList v c n t => list_items v c n t
  | CmdOverview v u t => show_item true v u t
  | CmdDetails v u t => show_item false v u t
  | CmdVersion => say (b "=== " ++ app_version ++ b " ===")
  end.

(** main.go:26-70: a process, from start to end. *)
Definition process (c : command) (w : world) : world * res unit :=
  match load_config Y (w_disk w) dir with
  | Ok m => let (a, r) := run_command c (MkApp w m init) in (a_world a, r)
  | Panic => (w, Panic)
  | Exit n => (w, Exit n)
  end.

End Cli.
