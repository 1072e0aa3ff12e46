(** The update check of the GUI as the goroutine it is (versionwidget.go:57), step by step, between the events the
    user causes.  Gui.v has it as one step, [Checked]. *)
From Verif Require Import Base Utf8 GoStrings Json Civil Crypto Path Fs Domain Repos Session World Config Updater Cli Gui.
Open Scope st_scope.

(** Where the goroutine is, with what it has found out. *)
Inductive task :=
| Ask                                              (* before updater.go:52, the request *)
| Clock (r : eres update_info)                     (* before updater.go:108, time.Now *)
| Look (r : eres update_info) (t : Z)              (* before updater.go:111, os.Stat *)
| Make (r : eres update_info) (t : Z)              (* before updater.go:112, os.MkdirAll *)
| Open (r : eres update_info) (t : Z)              (* before updater.go:115, opening in ioutil.WriteFile *)
| Fill (r : eres update_info) (t : Z) (l : loc)    (* before writing in ioutil.WriteFile *)
| Show (r : eres update_info)                      (* before versionwidget.go:35-43 *)
| Over.

Section Conc.
Variable C : crypto.
Variable U : unicode.
Variable tz : Z -> Z.
Variable dir : bytes.
Variable center : bytes -> Z -> bytes.

(** versionwidget.go:31-44: what is appended to the first line. *)
Definition check_text (r : eres update_info) : bytes :=
  match r with
  | Val info => b "(new version is available: v" ++ ui_version info ++ b " - run '1pass update' to upgrade)"
  | Err ErrNoUpdate => b "(" ++ err_text ErrNoUpdate ++ b ")"
  | Err _ => b "(update check failed - run '1pass update' for more info)"
  end.

(** One step of the goroutine: versionwidget.go:31-44, guicontrol.go:28-30, updatefacade.go:26-30,
    updateservice.go:25-49, updater.go:50-116.  Between two steps there is at most one call that other programs or
    the GUI can notice.  After the last one the layout runs, as after every event in Gui.v. *)
Definition tick (k : task) : gact task :=
  match k with
  | Ask =>
      m <- on_app the_conf ;;
      lift (get_config m) ;;;
      r <- on_app (on_world fetch_info) ;;
      ret (match r with
           | Err e => Show (Err e)
           | Val None => Clock (Err ErrNoUpdate)
           | Val (Some info) => Clock (if ui_newer info then Val info else Err ErrNoUpdate)
           end)
  | Clock r => t <- on_app (on_world now) ;; ret (Look r t)
  | Look r t => d <- on_app (on_world (io_stat dir)) ;; ret (match d with None => Make r t | Some _ => Open r t end)
  | Make r t => on_app (on_world (mkdir_all dir)) ;;; ret (Open r t)
  | Open r t =>
      o <- on_app (on_world (open_trunc (join_path [dir; last_check_file]) 420)) ;;
      ret (match o with Some l => Fill r t l | None => Show r end)
  | Fill r t l => on_app (on_world (write_bytes l (itoa (t / 1000000000)%Z))) ;;; ret (Show r)
  | Show r =>
      on_view VVersion (write (check_text r)) ;;;
      put (set_checking false) ;;;
      ok <- layout center ;;
      (if ok then ret Over else os_exit 1)
  | Over => ret Over
  end.

(** A schedule: whose turn it is. *)
Inductive turn := Tick | Event (Or : oracles) (i : input).

(** A run of the GUI with its goroutine.  The answer says whether the loop goes on, and where the goroutine is. *)
Fixpoint weave (ts : list turn) (k : task) : gact (bool * task) :=
  match ts with
  | [] => ret (true, k)
  | Tick :: ts' => k' <- tick k ;; weave ts' k'
  | Event Or i :: ts' =>
      more <- gui_step C U tz Or dir center i ;;
      if more then weave ts' k else ret (false, k)
  end.
End Conc.
