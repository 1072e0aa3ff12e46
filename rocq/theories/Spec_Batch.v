(** What it means that events handled together act like events handled one by one. *)
From Verif Require Import Base Utf8 GoStrings Json Civil Crypto Path Fs Domain Repos Session
  World Config Updater Cli Gui Spec_Gui Batch.

(** The same GUI: the same program and the same fields; the same view has the focus; the views agree one by one. *)
Record same_gui (g1 g2 : gui) : Prop := {
  al_app : g_app g1 = g_app g2; al_vault : g_vault g1 = g_vault g2; al_cats : g_cats g1 = g_cats g2;
  al_midx : g_menu_idx g1 = g_menu_idx g2; al_rows : g_rows g1 = g_rows g2; al_ridx : g_row_idx g1 = g_row_idx g2;
  al_item : g_item g1 = g_item g2; al_help : g_help g1 = g_help g2; al_error : g_error g1 = g_error g2;
  al_checking : g_checking g1 = g_checking g2; al_cur : current g1 = current g2;
  al_w : ui_w (g_ui g1) = ui_w (g_ui g2); al_h : ui_h (g_ui g1) = ui_h (g_ui g2);
  al_view : forall n, view_of g1 n = view_of g2 n;
}.

(** The events of a round, one after the other. *)
Definition events_of (r : round) : list (oracles * input) := match r with Keys es => es | Beside Or i => [(Or, i)] end.

(** Beside the loop the update check ends and other programs change files. *)
Definition beside (i : input) : Prop := match i with Checked | Disk _ => True | _ => False end.

(** Events of which none depends on what another one would draw: ENTER does not wait behind typed text, and a new
    size of the terminal is the last event. *)
Fixpoint orderly_keys (es : list input) : Prop :=
  match es with
  | [] => True
  | Typed _ :: es' => ~ In (Press KEnter) es' /\ orderly_keys es'
  | Resize _ _ :: es' => es' = []
  | _ :: es' => orderly_keys es'
  end.
Definition orderly (r : round) : Prop :=
  match r with Keys es => orderly_keys (map snd es) | Beside _ i => beside i end.
