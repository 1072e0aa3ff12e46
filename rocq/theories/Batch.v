(** gocui's main loop (github.com/jroimartin/gocui v0.4, Gui.MainLoop, consumeevents, flush; not part of /repo)
    around the handlers of Gui.v: all events that wait are handled before the screen is laid out and drawn again.

    View.ViewBuffer, which 1passwidget.go:150 reads, is the text as it was drawn last, not the text in the buffer.
    The size of the terminal is read when the screen is drawn.  The goroutine of versionwidget.go:57 writes into the
    view without waking the loop. *)
From Verif Require Import Base Utf8 GoStrings Json Civil Crypto Path Fs Domain Repos Session
  World Config Updater Cli Gui.

(** The GUI; the text of the password prompt as drawn last (nothing if it was not drawn yet); the size of the
    terminal; the texts on the screen. *)
Record term := MkTerm {
  t_gui : gui;
  t_seen : bytes;
  t_w : Z; t_h : Z;
  t_screen : vname -> option bytes;
}.

Definition keep (s : term) (p : gui * res bool) : term * res bool :=
  (MkTerm (fst p) (t_seen s) (t_w s) (t_h s) (t_screen s),
   match snd p with Ok false => Exit 1 | r => r end).

Definition resize (w h : Z) (g : gui) : gui :=
  set_ui (MkUi w h (ui_views (g_ui g)) (ui_cur (g_ui g))) g.

Section Batch.
Variable C : crypto.
Variable U : unicode.
Variable tz : Z -> Z.
Variable dir : bytes.
Variable center : bytes -> Z -> bytes.

(** gocui: Gui.handleEvent; gocui.go:28-30, 61-63: CTRL+Q ends the loop, an error the program.  The handler of ENTER in the
    password prompt (1passwidget.go:149-173) finds the text that was drawn and deletes the view. *)
Definition event (Or : oracles) (i : input) (s : term) : term * res bool :=
  match i with
  | Press KQuit => (s, Ok false)
  | Resize w h => (MkTerm (t_gui s) (t_seen s) w h (t_screen s), Ok true)
  | Press KEnter =>
      if vname_eqb (ui_cur (g_ui (t_gui s))) VPrompt then
        let (s', r) := keep s (check (on_view VPrompt (fun v => write (t_seen s) (clear v))) (handle C U tz Or dir center i) (t_gui s)) in
        (MkTerm (t_gui s') [] (t_w s') (t_h s') (t_screen s'), r)
      else keep s (handle C U tz Or dir center i (t_gui s))
  | _ => keep s (handle C U tz Or dir center i (t_gui s))
  end.

(** gocui: Gui.flush *)
Definition flush (s : term) : term * res bool :=
  let (g, r) := layout center (resize (t_w s) (t_h s) (t_gui s)) in
  (MkTerm g (match ui_views (g_ui g) VPrompt with Some v => v_text v | None => [] end) (t_w s) (t_h s)
          (fun n => option_map v_text (ui_views (g_ui g) n)),
   match r with Ok false => Exit 1 | _ => r end).

(** gocui: Gui.consumeevents and the drawing after it. *)
Fixpoint events (es : list (oracles * input)) (s : term) : term * res bool :=
  match es with
  | [] => flush s
  | (Or, i) :: es' =>
      match event Or i s with
      | (s', Ok true) => events es' s'
      | x => x
      end
  end.

(** Events that were waiting together; or something beside the loop: the end of the update check, another program. *)
Inductive round :=
| Keys (es : list (oracles * input))
| Beside (Or : oracles) (i : input).

Definition turn_of (r : round) (s : term) : term * res bool :=
  match r with
  | Keys es => events es s
  | Beside Or Checked => event Or Checked s
  | Beside Or (Disk d) => event Or (Disk d) s
  | Beside _ _ => (s, Ok true)
  end.

(** gocui: Gui.MainLoop *)
Fixpoint rounds (rs : list round) (s : term) : term * res bool :=
  match rs with
  | [] => (s, Ok true)
  | r :: rs' =>
      match turn_of r s with
      | (s', Ok true) => rounds rs' s'
      | x => x
      end
  end.

(** cobra.go:37-40, gocui.go:32-64: the program without a command; the loop draws once before it waits. *)
Definition drawn (g : gui) : term :=
  MkTerm g (match ui_views (g_ui g) VPrompt with Some v => v_text v | None => [] end) (ui_w (g_ui g)) (ui_h (g_ui g))
         (fun n => option_map v_text (ui_views (g_ui g) n)).

Definition gui_rounds (Y : yaml) (path : bytes) (w h : Z) (rs : list round) (world : world) : term * res bool :=
  match gui_process C U tz Y dir center path w h [] world with
  | (g, Ok true) => rounds rs (drawn g)
  | (g, r) => (drawn g, r)
  end.

End Batch.
