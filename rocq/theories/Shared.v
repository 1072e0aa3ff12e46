(** An update that does not have the machine for itself: other programs change files
    between its stages, among them a second update.  updateservice.go:51-117; the stages are
    those of [steps] in UpdateProof.v, whose sequence is proved to be [update] there.

    Simplified: others move between two stages only, not between two system calls of one stage
    (so every sharing here is one the operating system allows, but not the other way round), and
    they do not change who may read which file. *)
From Verif Require Import Base Utf8 Crypto Path Fs Domain World Config Updater UpdateProof.

(** An update on its way: what the process sees, the stages it still has to do, and its answer
    once it has one. *)
Record running := MkRunning {
  r_world : world;
  r_left : list (nat * io (option goerr));
  r_answer : option (res (option goerr));
}.

(** updateservice.go:51-66 *)
Definition begin_update (C : crypto) (T : unpacker) (w : world) : running :=
  match fetch_info w with
  | (w', Ok (Val (Some info))) =>
      if ui_newer info then MkRunning w' (steps C T info) None
      else MkRunning w' [] (Some (Ok (Some ErrNoUpdate)))
  | (w', Ok (Val None)) => MkRunning w' [] (Some (Ok (Some ErrNoUpdate)))
  | (w', Ok (Err e)) => MkRunning w' [] (Some (Ok (Some e)))
  | (w', Panic) => MkRunning w' [] (Some Panic)
  | (w', Exit n) => MkRunning w' [] (Some (Exit n))
  end.

(** updateservice.go:66-117, one stage. *)
Definition advance (stage : nat -> bytes) (p : running) : running :=
  match r_answer p, r_left p with
  | None, (n, s) :: rest =>
      match (announce stage n ;;; s)%st (r_world p) with
      | (w, Ok None) => MkRunning w rest (match rest with [] => Some (Ok None) | _ => None end)
      | (w, r) => MkRunning w rest (Some r)
      end
  | _, _ => p
  end.

(** Other programs have left these files. *)
Definition set_files (f : fs) (w : world) : world :=
  set_disk (MkDisk f (d_cwd (w_disk w)) (d_unreadable (w_disk w))) w.
Definition disturb (f : fs) (p : running) : running :=
  MkRunning (set_files f (r_world p)) (r_left p) (r_answer p).

Inductive move := Ours | Others (f : fs).

Fixpoint share (stage : nat -> bytes) (ms : list move) (p : running) : running :=
  match ms with
  | [] => p
  | Ours :: ms' => share stage ms' (advance stage p)
  | Others f :: ms' => share stage ms' (disturb f p)
  end.

(** Two updates on one machine: the schedule says which one does its next stage. *)
Inductive turn := First | Second.

Fixpoint two (stage : nat -> bytes) (ts : list turn) (p q : running) : running * running :=
  match ts with
  | [] => (p, q)
  | First :: ts' =>
      let p' := advance stage p in
      two stage ts' p' (disturb (w_fs (r_world p')) q)
  | Second :: ts' =>
      let q' := advance stage q in
      two stage ts' (disturb (w_fs (r_world q')) p) q'
  end.

(** Alone, this is the update. *)
Lemma alone_run stage l : l <> [] -> forall w n, length l <= n ->
  share stage (repeat Ours n) (MkRunning w l None) =
  MkRunning (fst (run_stages stage l w)) (r_left (share stage (repeat Ours n) (MkRunning w l None)))
    (Some (snd (run_stages stage l w))).
Proof.
  assert (Hend : forall n w l r, share stage (repeat Ours n) (MkRunning w l (Some r)) = MkRunning w l (Some r)).
  { induction n as [|n IH]; intros w l0 r; [reflexivity|]. cbn [repeat share]. apply IH. }
  induction l as [|[k s] l IH]; intros Hne w n Hn; [congruence|]. clear Hne.
  destruct n as [|n]; [cbn in Hn; lia|]. cbn [repeat share]. cbn [run_stages]. unfold advance. cbn [r_answer r_left r_world].
  unfold bind. destruct (announce stage k w) as [w0 [u| |m]] eqn:Ea; [|discriminate|discriminate].
  destruct (s w0) as [w1 [[e|]| |m]]; try (rewrite Hend; reflexivity).
  destruct l as [|x l]; [rewrite Hend; reflexivity|]. apply IH; [discriminate|]. cbn in Hn |- *. lia.
Qed.

Lemma alone C T stage w n : 7 <= n ->
  let p := share stage (repeat Ours n) (begin_update C T w) in
  r_world p = fst (update C T stage w) /\ r_answer p = Some (snd (update C T stage w)).
Proof.
  intros Hn.
  assert (Hend : forall n w l r, share stage (repeat Ours n) (MkRunning w l (Some r)) = MkRunning w l (Some r)).
  { induction n0 as [|n0 IH]; intros w0 l0 r; [reflexivity|]. cbn [repeat share]. apply IH. }
  cbn zeta. rewrite update_stages. unfold begin_update, bind. destruct (fetch_info w) as [w0 [[[info|]|e]| |k]].
  - destruct (ui_newer info); cbn [negb]; [|rewrite Hend; now split].
    rewrite alone_run by (discriminate || exact Hn). now split.
  - rewrite Hend. now split.
  - rewrite Hend. now split.
  - rewrite Hend. now split.
  - rewrite Hend. now split.
Qed.

(** For each of two updates, the other one is just another program. *)
Lemma two_first stage ts : forall p q, exists ms, fst (two stage ts p q) = share stage ms p.
Proof.
  induction ts as [|[|] ts IH]; intros p q; cbn [two].
  - exists []. reflexivity.
  - destruct (IH (advance stage p) (disturb (w_fs (r_world (advance stage p))) q)) as [ms H]. exists (Ours :: ms). exact H.
  - destruct (IH (disturb (w_fs (r_world (advance stage q))) p) (advance stage q)) as [ms H]. eexists (Others _ :: ms). exact H.
Qed.

From Verif Require Import GoStrings Session Cli Repos.

(** main.go:44, configrepo.go:30-50: the settings are read when the process starts.  Other programs
    change files after that (here: before the command does anything else). *)
Definition process_meanwhile (C : crypto) (U : unicode) (tz : Z -> Z) (O : oracles) (Y : yaml) (T : unpacker)
  (render : list (list bytes) -> bytes) (dir : bytes) (c : command) (meanwhile : fs) (w : world) : world * res unit :=
  match load_config Y (w_disk w) dir with
  | Ok m => let (a, r) := run_command C U tz O Y T render dir c (MkApp (set_files meanwhile w) m init) in (a_world a, r)
  | Panic => (w, Panic)
  | Exit n => (w, Exit n)
  end.

Lemma meanwhile_nothing C U tz O Y T render dir c w :
  process_meanwhile C U tz O Y T render dir c (w_fs w) w = process C U tz O Y T render dir c w.
Proof.
  unfold process_meanwhile, process. replace (set_files (w_fs w) w) with w; [reflexivity|].
  destruct w as [[f cwd u] um ex fl net ck si pa tr]. reflexivity.
Qed.
