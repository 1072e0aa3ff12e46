(** Lemmas about updates: stages, events, faults, what is written where. *)
From Verif Require Import Base Utf8 GoStrings GoStringsProof Json Crypto Path Fs FsProof Domain
  Session World WorldProof Config Updater.

(** ** Events *)

(** Running [m] only adds events with the property [P]. *)
Definition emits {A} (P : ev -> Prop) (m : io A) : Prop := forall w,
  exists t, w_trace (fst (m w)) = t ++ w_trace w /\ Forall P t.

Section Emits.
Variable P : ev -> Prop.

Lemma emits_none {A} (m : io A) : (forall w, w_trace (fst (m w)) = w_trace w) -> emits P m.
Proof. intros H w. exists []. split; [apply H|constructor]. Qed.
Lemma emits_ret {A} (x : A) : emits P (ret x).
Proof. now apply emits_none. Qed.
Lemma emits_lift {A} (x : res A) : emits P (lift x).
Proof. now apply emits_none. Qed.
Lemma emits_bind {A B} (m : io A) (k : A -> io B) : emits P m -> (forall x, emits P (k x)) -> emits P (bind m k).
Proof.
  intros Hm Hk w. unfold bind. destruct (Hm w) as (t1 & E1 & P1).
  destruct (m w) as [w1 [x| |n]]; cbn [fst] in *; eauto.
  destruct (Hk x w1) as (t2 & E2 & P2). exists (t2 ++ t1). split.
  - rewrite E2, E1. apply app_assoc.
  - apply Forall_app. auto.
Qed.

Lemma emits_stat p : emits P (io_stat p).
Proof. now apply emits_none. Qed.
Lemma emits_read p : emits P (io_read p).
Proof. now apply emits_none. Qed.
Lemma emits_executable : emits P executable.
Proof. now apply emits_none. Qed.
Lemma emits_now : emits P now.
Proof. apply emits_none. intros w. unfold now. now destruct (w_clock w). Qed.
Lemma emits_scan : emits P scan.
Proof. apply emits_none. intros w. unfold scan. now destruct (scanln (w_stdin w)). Qed.

Lemma emits_one {A} (m : io A) e : P e -> (forall w, w_trace (fst (m w)) = e :: w_trace w) -> emits P m.
Proof. intros He H w. exists [e]. split; [apply H|repeat constructor; exact He]. Qed.
Lemma emits_print t : P (EOut t) -> emits P (print t).
Proof. intros H. now apply (emits_one _ (EOut t)). Qed.
Lemma emits_ask : P EAsk -> emits P ask_password.
Proof. intros H. apply (emits_one _ EAsk H). intros w. unfold ask_password. now destruct (w_pass w). Qed.
Lemma emits_http u : P (EGet u) -> emits P (http_get u).
Proof.
  intros H. destruct u as [|c u]; [now apply emits_none|]. apply (emits_one _ _ H).
  intros w. unfold http_get. now destruct (w_net w).
Qed.

Hypothesis Pfs : forall f, P (EFs f).

Lemma emits_change g : emits P (change g).
Proof.
  intros w. unfold change. destruct (w_faults w) as [|[n|] fl]; cbn [fst].
  - exists [EFs (g (w_fs w))]. split; [reflexivity|repeat constructor; auto].
  - exists []. split; [reflexivity|constructor].
  - exists [EFs (g (w_fs w))]. split; [reflexivity|repeat constructor; auto].
Qed.
Lemma append_emits l data : forall w, exists t, w_trace (append_bytes l data w) = t ++ w_trace w /\ Forall P t.
Proof.
  induction data as [|c data IH]; intros w; cbn [append_bytes]; [exists []; split; [reflexivity|constructor]|].
  destruct (fs_get (w_fs w) l) as [[old m|]|]; try apply IH.
  destruct (IH (put_fs (fs_set l (NFile (old ++ [c]) m) (w_fs w)) w)) as (t & E & Ht).
  exists (t ++ [EFs (fs_set l (NFile (old ++ [c]) m) (w_fs w))]). rewrite E. split; [now rewrite <- app_assoc|].
  apply Forall_app. split; [exact Ht|repeat constructor; auto].
Qed.
Lemma emits_write l data : emits P (write_bytes l data).
Proof.
  intros w. unfold write_bytes. destruct (w_faults w) as [|[n|] fl]; cbn [fst]; [apply append_emits| |].
  - exact (append_emits l (firstn n data) (set_faults fl w)).
  - exact (append_emits l data (set_faults fl w)).
Qed.
Lemma emits_open p perm : emits P (open_trunc p perm).
Proof.
  intros w. unfold open_trunc. destruct (resolve_new (w_disk w) p) as [l|]; [|now apply (emits_ret (@None loc))].
  destruct (fs_get (w_fs w) l) as [[c m|]|]; [|now apply (emits_ret (@None loc))|];
    refine (emits_bind _ _ (emits_change _) (fun ok => emits_ret _) w).
Qed.
Lemma emits_write_file p data perm : emits P (write_file p data perm).
Proof. apply emits_bind; [apply emits_open|]. intros [l|]; [apply emits_write|apply emits_ret]. Qed.
Lemma emits_make_dirs ls : emits P (make_dirs ls).
Proof.
  induction ls as [|l ls IH]; cbn [make_dirs]; [apply emits_ret|].
  apply emits_bind; [apply emits_change|]. intros [|]; [exact IH|apply emits_ret].
Qed.
Lemma emits_mkdir p : emits P (mkdir_all p).
Proof.
  intros w. unfold mkdir_all. destruct p as [|c p]; [now apply (emits_ret false)|].
  destruct (missing_dirs _ _ _) as [ls|]; [apply emits_make_dirs|now apply (emits_ret false)].
Qed.
Lemma emits_unlink ls : emits P (unlink_all ls).
Proof.
  induction ls as [|l ls IH]; cbn [unlink_all]; [apply emits_ret|].
  apply emits_bind; [apply emits_change|]. intros [|]; [exact IH|apply emits_ret].
Qed.
Lemma emits_remove p : emits P (remove_all p).
Proof.
  intros w. unfold remove_all. destruct (resolve (w_disk w) p) as [l|]; [apply emits_unlink|now apply (emits_ret true)].
Qed.
Lemma emits_rename p q : emits P (rename p q).
Proof.
  intros w. unfold rename.
  destruct (resolve (w_disk w) p) as [l|], (resolve_new (w_disk w) q) as [k|]; try (now apply (emits_ret false)).
  destruct (fs_get (w_fs w) l) as [[c m|]|], (fs_get (w_fs w) k) as [[c' m'|]|]; try (now apply (emits_ret false));
    (destruct (loc_eqb l k); [now apply (emits_ret true)|apply emits_change]).
Qed.
Lemma emits_save p data whole : emits P (save_stream p data whole).
Proof.
  apply emits_bind; [apply emits_open|]. intros [l|]; [|apply emits_ret].
  apply emits_bind; [apply emits_write|]. intros ok. apply emits_ret.
Qed.
Lemma emits_download p u : P (EGet u) -> emits P (download p u).
Proof.
  intros H. apply emits_bind; [now apply emits_http|]. intros [|body c]; [apply emits_ret|apply emits_save].
Qed.
Lemma emits_entries dst es proper : emits P (extract_entries dst es proper).
Proof.
  induction es as [|e es IH]; cbn [extract_entries]; [apply emits_ret|].
  destruct (e_regular e); [|exact IH]. apply emits_bind; [apply emits_save|].
  intros [|]; [exact IH|apply emits_ret].
Qed.
Lemma emits_extract T src dst : emits P (extract T src dst).
Proof.
  apply emits_bind; [apply emits_read|]. intros [s|]; [|apply emits_ret].
  destruct (T s) as [[es proper]|]; [apply emits_entries|apply emits_ret].
Qed.
Lemma emits_replace src : emits P (replace_binary src).
Proof. apply emits_bind; [apply emits_executable|]. intros [e|]; [apply emits_rename|apply emits_ret]. Qed.
Lemma emits_timestamp dir : emits P (check_timestamp dir).
Proof.
  apply emits_bind; [apply emits_now|]. intros t. apply emits_bind; [apply emits_stat|]. intros d.
  apply emits_bind; [destruct d; [apply emits_ret|apply emits_mkdir]|]. intros _.
  apply emits_bind; [apply emits_write_file|]. intros _. apply emits_ret.
Qed.
End Emits.

Lemma emits_validate P C x y : emits P (validate_checksum C x y).
Proof.
  apply emits_bind; [apply emits_read|]. intros [text|]; [|apply emits_ret].
  apply emits_bind; [apply emits_read|]. intros [data|]; [|apply emits_ret].
  destruct (fields (trim_space text)); [apply emits_lift|apply emits_ret].
Qed.
Lemma emits_fetch (P : ev -> Prop) : P (EGet github_releases) -> emits P fetch_info.
Proof.
  intros H. apply emits_bind; [now apply emits_http|]. intros [|body [|]]; try apply emits_ret. apply emits_lift.
Qed.

(** ** Stages *)

Definition stages (w : world) : list nat :=
  rev (flat_map (fun e => match e with EStage n => [n] | _ => [] end) (w_trace w)).

Definition no_stage (e : ev) : Prop := match e with EStage _ => False | _ => True end.

Lemma stages_app w t tr : w_trace w = t ++ tr -> Forall no_stage t ->
  stages w = rev (flat_map (fun e => match e with EStage n => [n] | _ => [] end) tr).
Proof.
  intros E Ht. unfold stages. rewrite E, flat_map_app.
  assert (H : flat_map (fun e => match e with EStage n => [n] | _ => [] end) t = []).
  { clear E. induction Ht as [|e t He _ IH]; [reflexivity|]. cbn [flat_map]. destruct e; try contradiction; exact IH. }
  now rewrite H.
Qed.

Lemma emits_stages {A} (m : io A) w : emits no_stage m -> stages (fst (m w)) = stages w.
Proof. intros H. destruct (H w) as (t & E & Ht). now rewrite (stages_app _ _ _ E Ht). Qed.

(** A list of stages, run one after the other until one fails. *)
Fixpoint run_stages (stage : nat -> bytes) (l : list (nat * io (option goerr))) : io (option goerr) :=
  match l with
  | [] => ret None
  | (n, s) :: l' =>
      (announce stage n ;;;
       e <- s ;;
       match e with Some x => ret (Some x) | None => run_stages stage l' end)%st
  end.

Definition as_step (m : io bool) : io (option goerr) :=
  (ok <- m ;; ret (if ok then None else Some io_error))%st.

Definition archive_path := join_path [cache_dir; archive_name].
Definition checksum_path := join_path [cache_dir; checksum_name].
Definition binary_path := join_path [cache_dir; app_name].

Definition step1 : io (option goerr) :=
  (ok <- remove_all cache_dir ;; if ok then as_step (mkdir_all cache_dir) else ret (Some io_error))%st.

Definition steps (C : crypto) (T : unpacker) (info : update_info) : list (nat * io (option goerr)) :=
  [ (1, step1);
    (2, as_step (download archive_path (ui_archive info)));
    (3, as_step (download checksum_path (ui_checksum info)));
    (4, as_step (extract T archive_path cache_dir));
    (5, validate_checksum C binary_path checksum_path);
    (6, as_step (replace_binary binary_path));
    (7, as_step (remove_all cache_dir)) ].

Lemma update_stages C T stage w :
  update C T stage w =
  (r <- fetch_info ;;
   match r with
   | Err e => ret (Some e)
   | Val None => ret (Some ErrNoUpdate)
   | Val (Some info) => if negb (ui_newer info) then ret (Some ErrNoUpdate) else run_stages stage (steps C T info)
   end)%st w.
Proof.
  unfold update, bind at 1. symmetry. unfold bind at 1. symmetry.
  destruct (fetch_info w) as [w0 [[[info|]|e]| |n]]; try reflexivity.
  all: destruct (negb (ui_newer info)); [reflexivity|].
  all: unfold run_stages, steps, step1, as_step, try_step, bind, ret, announce.
  all: fold archive_path checksum_path binary_path.
  all: destruct (remove_all cache_dir _) as [w1 [[|]| |n]]; try reflexivity.
  all: destruct (mkdir_all cache_dir w1) as [w2 [[|]| |n]]; try reflexivity.
  all: destruct (download archive_path _ _) as [w3 [[|]| |n]]; try reflexivity.
  all: destruct (download checksum_path _ _) as [w4 [[|]| |n]]; try reflexivity.
  all: destruct (extract T archive_path cache_dir _) as [w5 [[|]| |n]]; try reflexivity.
  all: destruct (validate_checksum C binary_path checksum_path _) as [w6 [[e|]| |n]]; try reflexivity.
  all: destruct (replace_binary binary_path _) as [w7 [[|]| |n]]; try reflexivity.
  all: destruct (remove_all cache_dir _) as [w8 [[|]| |n]]; reflexivity.
Qed.

Lemma run_stages_app stage l1 l2 w :
  run_stages stage (l1 ++ l2) w =
  match run_stages stage l1 w with
  | (w1, Ok None) => run_stages stage l2 w1
  | r => r
  end.
Proof.
  revert w; induction l1 as [|[n s] l1 IH]; intros w; cbn [app run_stages]; [reflexivity|].
  unfold bind, announce. destruct (s _) as [w1 [[e|]| |k]]; try reflexivity. apply IH.
Qed.

(** The reported stages are a prefix, complete exactly on success. *)
Lemma run_stages_prefix stage l : Forall (fun ns => emits no_stage (snd ns)) l -> forall w,
  exists k, k <= length l /\ stages (fst (run_stages stage l w)) = stages w ++ firstn k (map fst l) /\
    (snd (run_stages stage l w) = Ok None -> k = length l).
Proof.
  induction 1 as [|[n s] l Hs _ IH]; intros w; cbn [run_stages].
  - exists 0. cbn. rewrite app_nil_r. auto.
  - unfold bind, announce. cbn [snd] in Hs. set (w1 := add_event _ (add_event _ w)).
    assert (E1 : stages w1 = stages w ++ [n]) by reflexivity.
    assert (E2 := emits_stages s w1 Hs). destruct (s w1) as [w2 [[e|]| |x]]; cbn [fst] in E2.
    + exists 1. cbn. rewrite E2, E1. repeat split; [lia|discriminate].
    + destruct (IH w2) as (k & Hk & E & Hf). exists (S k). cbn [length map fst firstn]. split; [lia|].
      split; [rewrite E, E2, E1, <- app_assoc; reflexivity|]. intros H. now rewrite (Hf H).
    + exists 1. cbn. rewrite E2, E1. repeat split; [lia|discriminate].
    + exists 1. cbn. rewrite E2, E1. repeat split; [lia|discriminate].
Qed.

(** What happened up to a stage: either it was not reached, or everything before succeeded. *)
Lemma run_stages_reach stage n s l1 l2 w :
  let r := run_stages stage (l1 ++ (n, s) :: l2) w in
  (exists e, run_stages stage l1 w = (fst r, e) /\ e <> Ok None /\ snd r = e) \/
  (exists w1, run_stages stage l1 w = (w1, Ok None) /\
     r = run_stages stage ((n, s) :: l2) w1).
Proof.
  cbn zeta. rewrite run_stages_app.
  destruct (run_stages stage l1 w) as [w1 [[e|]| |k]] eqn:E.
  - left. exists (Ok (Some e)). repeat split. discriminate.
  - right. exists w1. split; reflexivity.
  - left. exists Panic. repeat split. discriminate.
  - left. exists (Exit k). repeat split. discriminate.
Qed.

Lemma run_stages_emits (P : ev -> Prop) stage l :
  (forall n, P (EStage n)) -> (forall t, P (EOut t)) -> Forall (fun ns => emits P (snd ns)) l ->
  emits P (run_stages stage l).
Proof.
  intros H1 H2. induction 1 as [|[n s] l Hs _ IH]; cbn [run_stages]; [apply emits_ret|].
  apply emits_bind.
  { intros w. exists [EOut (stage n); EStage n]. split; [reflexivity|]. repeat constructor; auto. }
  intros _. apply emits_bind; [exact Hs|]. intros [e|]; [apply emits_ret|exact IH].
Qed.

Lemma emits_as_step P m : emits P m -> emits P (as_step m).
Proof. intros H. apply emits_bind; [exact H|]. intros ok. apply emits_ret. Qed.

Lemma emits_step1 (P : ev -> Prop) : (forall f, P (EFs f)) -> emits P step1.
Proof.
  intros H. apply emits_bind; [now apply emits_remove|]. intros [|]; [|apply emits_ret].
  apply emits_as_step. now apply emits_mkdir.
Qed.

Lemma steps_emit (P : ev -> Prop) C T info :
  (forall f, P (EFs f)) -> P (EGet (ui_archive info)) -> P (EGet (ui_checksum info)) ->
  Forall (fun ns => emits P (snd ns)) (steps C T info).
Proof.
  intros H1 H2 H3. unfold steps. repeat constructor; cbn [snd].
  - now apply emits_step1.
  - apply emits_as_step. now apply emits_download.
  - apply emits_as_step. now apply emits_download.
  - apply emits_as_step. now apply emits_extract.
  - apply emits_validate.
  - apply emits_as_step. now apply emits_replace.
  - apply emits_as_step. now apply emits_remove.
Qed.

(** ** Faults *)

(** [m] makes no further change after one that failed, and then says so. *)
Definition stops {A} (bad : A -> Prop) (m : io A) : Prop := forall w w' x,
  m w = (w', Ok x) ->
  exists u, (w_faults w = repeat None u ++ w_faults w') \/
            (exists n, w_faults w = repeat None u ++ Some n :: w_faults w' /\ bad x).

(** Same, when the process may end inside. *)
Definition stops_dead {A} (m : io A) : Prop := forall w w' r,
  m w = (w', r) -> (forall x, r <> Ok x) -> exists u, w_faults w = repeat None u ++ w_faults w'.

Definition failed (ok : bool) : Prop := ok = false.
Definition is_error (e : option goerr) : Prop := e <> None.
Definition no_loc (o : option loc) : Prop := o = None.

Lemma stops_pure {A} bad (m : io A) : (forall w, w_faults (fst (m w)) = w_faults w) -> stops bad m.
Proof. intros H w w' x E. exists 0. left. specialize (H w). rewrite E in H. cbn in *. congruence. Qed.

Lemma stops_ret {A} bad (x : A) : stops bad (ret x).
Proof. now apply stops_pure. Qed.

Lemma repeat_app {A} (x : A) i j : repeat x i ++ repeat x j = repeat x (i + j).
Proof. induction i; cbn; [reflexivity|]. now rewrite IHi. Qed.

Lemma stops_bind {A B} (badA : A -> Prop) (badB : B -> Prop) (m : io A) (k : A -> io B) :
  stops badA m -> (forall x, stops badB (k x)) ->
  (forall x, badA x -> forall w w' y, k x w = (w', Ok y) -> w_faults w' = w_faults w /\ badB y) ->
  stops badB (bind m k).
Proof.
  intros Hm Hk Hbad w w' y H. apply bind_ok in H. destruct H as (w1 & x & H1 & H2).
  destruct (Hm _ _ _ H1) as [u [E|(n & E & Hb)]].
  - destruct (Hk x _ _ _ H2) as [u' [E'|(n & E' & Hb')]]; exists (u + u').
    + left. rewrite E, E', app_assoc. now rewrite repeat_app.
    + right. exists n. split; [|exact Hb']. rewrite E, E', app_assoc. now rewrite repeat_app.
  - destruct (Hbad x Hb _ _ _ H2) as [E2 Hy]. exists u. right. exists n. rewrite E2. auto.
Qed.

Lemma stops_change g : stops failed (change g).
Proof.
  intros w w' x. unfold change, failed. destruct (w_faults w) as [|[n|] fl] eqn:E; intros [= <- <-]; cbn.
  - exists 0. left. now rewrite E.
  - exists 0. right. exists n. auto.
  - exists 1. left. reflexivity.
Qed.

Lemma stops_write l data : stops failed (write_bytes l data).
Proof.
  intros w w' x. unfold write_bytes, failed. destruct (w_faults w) as [|[n|] fl] eqn:E; intros [= <- <-];
    rewrite append_faults; cbn.
  - exists 0. left. now rewrite E.
  - exists 0. right. exists n. auto.
  - exists 1. left. reflexivity.
Qed.

Lemma stops_open p perm : stops no_loc (open_trunc p perm).
Proof.
  intros w w' x. unfold open_trunc.
  assert (G : forall g l, bind (change g) (fun ok => ret (if ok then Some l else None)) w = (w', Ok x) ->
    exists u, (w_faults w = repeat None u ++ w_faults w') \/
            (exists n, w_faults w = repeat None u ++ Some n :: w_faults w' /\ no_loc x)).
  { intros g l. apply (stops_bind failed no_loc); [apply stops_change|intros; apply stops_ret|].
    intros ok -> w0 w1 y [= <- <-]. split; reflexivity. }
  destruct (resolve_new (w_disk w) p) as [l|]; [|intros [= <- <-]; exists 0; now left].
  destruct (fs_get (w_fs w) l) as [[c m|]|]; [apply G|intros [= <- <-]; exists 0; now left|apply G].
Qed.

Lemma stops_save p data whole : stops failed (save_stream p data whole).
Proof.
  apply (stops_bind no_loc failed); [apply stops_open| |].
  - intros [l|]; [|apply stops_ret]. apply (stops_bind failed failed); [apply stops_write|intros; apply stops_ret|].
    intros ok -> w w' y [= <- <-]. split; reflexivity.
  - intros o -> w w' y [= <- <-]. split; reflexivity.
Qed.

Lemma stops_make_dirs ls : stops failed (make_dirs ls).
Proof.
  induction ls as [|l ls IH]; cbn [make_dirs]; [apply stops_ret|].
  apply (stops_bind failed failed); [apply stops_change| |].
  - intros [|]; [exact IH|apply stops_ret].
  - intros ok -> w w' y [= <- <-]. split; reflexivity.
Qed.
Lemma stops_mkdir p : stops failed (mkdir_all p).
Proof.
  intros w w' x. unfold mkdir_all. destruct p as [|c p]; [intros [= <- <-]; exists 0; now left|].
  destruct (missing_dirs _ _ _) as [ls|]; [apply stops_make_dirs|intros [= <- <-]; exists 0; now left].
Qed.
Lemma stops_unlink ls : stops failed (unlink_all ls).
Proof.
  induction ls as [|l ls IH]; cbn [unlink_all]; [apply stops_ret|].
  apply (stops_bind failed failed); [apply stops_change| |].
  - intros [|]; [exact IH|apply stops_ret].
  - intros ok -> w w' y [= <- <-]. split; reflexivity.
Qed.
Lemma stops_remove p : stops failed (remove_all p).
Proof.
  intros w w' x. unfold remove_all.
  destruct (resolve (w_disk w) p); [apply stops_unlink|intros [= <- <-]; exists 0; now left].
Qed.
Lemma stops_rename p q : stops failed (rename p q).
Proof.
  intros w w' x. unfold rename.
  destruct (resolve (w_disk w) p) as [l|], (resolve_new (w_disk w) q) as [k|];
    try (intros [= <- <-]; exists 0; now left).
  destruct (fs_get (w_fs w) l) as [[c m|]|], (fs_get (w_fs w) k) as [[c' m'|]|];
    try (intros [= <- <-]; exists 0; now left);
    (destruct (loc_eqb l k); [intros [= <- <-]; exists 0; now left|apply stops_change]).
Qed.
Lemma stops_http u : stops (fun _ => False) (http_get u).
Proof. apply stops_pure. intros w. unfold http_get. destruct u; [reflexivity|]. now destruct (w_net w). Qed.
Lemma stops_download p u : stops failed (download p u).
Proof.
  apply (stops_bind (fun _ => False) failed); [apply stops_http| |intros x []].
  intros [|body c]; [apply stops_ret|apply stops_save].
Qed.
Lemma stops_entries dst es proper : stops failed (extract_entries dst es proper).
Proof.
  induction es as [|e es IH]; cbn [extract_entries]; [apply stops_ret|].
  destruct (e_regular e); [|exact IH]. apply (stops_bind failed failed); [apply stops_save| |].
  - intros [|]; [exact IH|apply stops_ret].
  - intros ok -> w w' y [= <- <-]. split; reflexivity.
Qed.
Lemma stops_extract T src dst : stops failed (extract T src dst).
Proof.
  apply (stops_bind (fun _ => False) failed); [now apply stops_pure| |intros x []].
  intros [s|]; [|apply stops_ret]. destruct (T s) as [[es proper]|]; [apply stops_entries|apply stops_ret].
Qed.
Lemma stops_replace src : stops failed (replace_binary src).
Proof.
  apply (stops_bind (fun _ => False) failed); [now apply stops_pure| |intros x []].
  intros [e|]; [apply stops_rename|apply stops_ret].
Qed.
Lemma stops_as_step m : stops failed m -> stops is_error (as_step m).
Proof.
  intros H. apply (stops_bind failed is_error); [exact H|intros; apply stops_ret|].
  intros ok -> w w' y [= <- <-]. split; [reflexivity|discriminate].
Qed.
Lemma validate_same C x y w : fst (validate_checksum C x y w) = w.
Proof.
  unfold validate_checksum, bind, io_read. destruct (read_file _ y) as [text|]; [|reflexivity].
  destruct (read_file _ x) as [data|]; [|reflexivity]. destruct (fields (trim_space text)); reflexivity.
Qed.
Lemma steps_stop C T info : Forall (fun ns => stops is_error (snd ns)) (steps C T info).
Proof.
  unfold steps. repeat constructor; cbn [snd]; try apply stops_as_step.
  - apply (stops_bind failed is_error); [apply stops_remove| |].
    + intros [|]; [apply stops_as_step, stops_mkdir|apply stops_ret].
    + intros ok -> w w' y [= <- <-]. split; [reflexivity|discriminate].
  - apply stops_download.
  - apply stops_download.
  - apply stops_extract.
  - apply stops_pure. intros w. now rewrite validate_same.
  - apply stops_replace.
  - apply stops_remove.
Qed.

Lemma run_stages_stop stage l : Forall (fun ns => stops is_error (snd ns)) l -> stops is_error (run_stages stage l).
Proof.
  induction 1 as [|[n s] l Hs _ IH]; cbn [run_stages]; [apply stops_ret|].
  apply (stops_bind (fun _ => False) is_error); [now apply stops_pure| |intros x []].
  intros _. apply (stops_bind is_error is_error); [exact Hs| |].
  - intros [e|]; [apply stops_ret|exact IH].
  - intros [e|] He w w' y; [|now elim He]. intros [= <- <-]. split; [reflexivity|discriminate].
Qed.

(** ** The cache directory *)

Definition cacheL : loc := [b "1pass"; b "tmp"].

Lemma place_cache cwd : place cwd cache_dir = cacheL.
Proof. reflexivity. Qed.
Lemma place_archive cwd : place cwd archive_path = archive_name :: cacheL.
Proof. reflexivity. Qed.
Lemma place_checksum cwd : place cwd checksum_path = checksum_name :: cacheL.
Proof. reflexivity. Qed.
Lemma place_binary cwd : place cwd binary_path = app_name :: cacheL.
Proof. reflexivity. Qed.
Lemma place_entry cwd n : place cwd (join_path [cache_dir; n]) = lexical cacheL (split_slash n).
Proof. rewrite place_join by discriminate. reflexivity. Qed.

(** The parts of a name, without empty ones and dots. *)
Definition parts (n : bytes) : list bytes :=
  filter (fun c => negb (bytes_eqb c [] || bytes_eqb c dot)) (split_slash n).

Lemma lexical_parts es : ~ In dotdot es -> forall cur,
  lexical cur es = rev (filter (fun c => negb (bytes_eqb c [] || bytes_eqb c dot)) es) ++ cur.
Proof.
  induction es as [|e es IH]; intros Hd cur; cbn [lexical filter]; [reflexivity|].
  assert (Hd' : ~ In dotdot es) by (intros H; apply Hd; now right).
  destruct (bytes_eqb e [] || bytes_eqb e dot); cbn [negb]; [now apply IH|].
  destruct (bytes_eqb e dotdot) eqn:E; [apply bytes_eqb_eq in E; subst; exfalso; apply Hd; now left|].
  rewrite IH by exact Hd'. cbn [rev]. now rewrite <- app_assoc.
Qed.

(** Nothing outside the cache changes; /tmp may be made. *)
Definition outside_same (f0 f : fs) : Prop := forall k, below cacheL k = false ->
  fs_get f k = fs_get f0 k \/ (k = [b "tmp"] /\ fs_get f0 k = None /\ fs_get f k = Some NDir).

Lemma outside_set f0 f l n : below cacheL l = true -> outside_same f0 f -> outside_same f0 (fs_set l n f).
Proof.
  intros Hl H k Hk. rewrite fs_get_set_other; [now apply H|]. congruence.
Qed.
Lemma outside_del f0 f l : below cacheL l = true -> outside_same f0 f -> outside_same f0 (fs_del l f).
Proof.
  intros Hl H k Hk. rewrite fs_get_del_other; [now apply H|]. congruence.
Qed.

Lemma missing_cache f ls : missing_dirs f [] (split_slash cache_dir) = Some ls ->
  (ls = [] \/ ls = [cacheL] \/ (fs_get f [b "tmp"] = None /\ ls = [[b "tmp"]; cacheL])).
Proof.
  change (split_slash cache_dir) with [[]; b "tmp"; b "1pass"].
  cbn [missing_dirs]. change (bytes_eqb [] [] || bytes_eqb [] dot) with true. cbn iota.
  change (bytes_eqb (b "tmp") [] || bytes_eqb (b "tmp") dot) with false. cbn iota.
  change (bytes_eqb (b "tmp") dotdot) with false. cbn iota.
  destruct (fs_get f [b "tmp"]) as [[c m|]|]; [discriminate| |].
  - change (bytes_eqb (b "1pass") [] || bytes_eqb (b "1pass") dot) with false. cbn iota.
    change (bytes_eqb (b "1pass") dotdot) with false. cbn iota.
    destruct (fs_get f [b "1pass"; b "tmp"]) as [[c m|]|]; [discriminate| |].
    + destruct (is_dir f _); [|discriminate]. intros [= <-]. auto.
    + intros H. right. left. assert (X : Some [cacheL] = Some ls) by exact H. congruence.
  - intros H. right. right. split; [reflexivity|].
    assert (X : Some [[b "tmp"]; cacheL] = Some ls) by exact H. congruence.
Qed.

Section Outside.
Variable B : list ev.
Variable E : loc * (loc -> bool) * N * option bytes.
Variable I : fs -> Prop.
Notation J := (since B E I).
Hypothesis I_set : forall f l c m, below cacheL l = true -> I f -> I (fs_set l (NFile c m) f).
Hypothesis I_del : forall f l, below cacheL l = true -> I f -> I (fs_del l f).
Hypothesis I_dir : forall f, I f -> I (fs_set cacheL NDir f).
Hypothesis I_tmp : forall f, I f -> fs_get f [b "tmp"] = None -> I (fs_set [b "tmp"] NDir f).

Lemma keeps_save p data whole :
  may_write I (place (fst (fst (fst E))) p) ->
  may_create I (place (fst (fst (fst E))) p) (N.ldiff 438 (snd (fst E))) ->
  keeps J (save_stream p data whole).
Proof.
  intros Hw Hc. apply keeps_bind_res; [now apply keeps_open_trunc|].
  intros [l|] w w' H Ho H'; [|exact H']. apply open_trunc_place in Ho. subst l.
  refine (keeps_bind _ _ _ _ _ w' H'); [apply keeps_write|intros ok; apply keeps_ret].
  now rewrite <- (proj1 H) in Hw.
Qed.

Lemma keeps_save_cache p data whole :
  below cacheL (place (fst (fst (fst E))) p) = true -> keeps J (save_stream p data whole).
Proof.
  intros Hb. apply keeps_save.
  - intros f c m c' HI _. now apply I_set.
  - intros f HI _. now apply I_set.
Qed.

Lemma keeps_download p u : below cacheL (place (fst (fst (fst E))) p) = true -> keeps J (download p u).
Proof.
  intros Hb. apply keeps_bind; [apply keeps_http|]. intros [|body c]; [apply keeps_ret|now apply keeps_save_cache].
Qed.

Lemma keeps_remove_cache : keeps J (remove_all cache_dir).
Proof. apply keeps_remove_all. rewrite place_cache. intros k f. apply I_del. Qed.

Lemma keeps_mkdir_cache : keeps J (mkdir_all cache_dir).
Proof.
  intros w Hw. unfold mkdir_all. change (rooted cache_dir) with true. cbn iota.
  change (match cache_dir with [] => (w, Ok false) | _ => ?x end) with x.
  assert (G : forall o, (forall ls, o = Some ls ->
      ls = [] \/ ls = [cacheL] \/ (fs_get (w_fs w) [b "tmp"] = None /\ ls = [[b "tmp"]; cacheL])) ->
    J (fst (match o with None => (w, Ok false) | Some ls => make_dirs ls w end))).
  { intros [ls|] Ho; [|exact Hw]. destruct (Ho ls eq_refl) as [->|[->|[Hn ->]]].
    - exact Hw.
    - apply keeps_make_dirs; [|exact Hw]. intros l f [<-|[]] HI _. now apply I_dir.
    - apply keeps_make_dirs; [|exact Hw]. intros l f [<-|[<-|[]]] HI Hg; [now apply I_tmp|now apply I_dir]. }
  apply G. intros ls. apply missing_cache.
Qed.

Lemma keeps_step1 : keeps J step1.
Proof.
  apply keeps_bind; [apply keeps_remove_cache|]. intros [|]; [|apply keeps_ret].
  apply keeps_bind; [apply keeps_mkdir_cache|]. intros ok. apply keeps_ret.
Qed.

Lemma keeps_as_step m : keeps J m -> keeps J (as_step m).
Proof. intros H. apply keeps_bind; [exact H|]. intros ok. apply keeps_ret. Qed.

Lemma keeps_announce stage n : keeps J (announce stage n).
Proof. intros w H. unfold announce. cbn [fst]. apply always_event; [exact Logic.I|]. now apply always_event. Qed.

Lemma keeps_run stage l : Forall (fun ns => keeps J (snd ns)) l -> keeps J (run_stages stage l).
Proof.
  induction 1 as [|[n s] l Hs _ IH]; cbn [run_stages]; [apply keeps_ret|].
  apply keeps_bind; [apply keeps_announce|]. intros _. apply keeps_bind; [exact Hs|].
  intros [e|]; [apply keeps_ret|exact IH].
Qed.

(** Entries that stay where [ok] says. *)
Lemma keeps_entries es proper :
  Forall (fun e => e_regular e = true ->
    may_write I (lexical cacheL (split_slash (e_name e))) /\
    may_create I (lexical cacheL (split_slash (e_name e))) (N.ldiff 438 (snd (fst E)))) es ->
  keeps J (extract_entries cache_dir es proper).
Proof.
  induction 1 as [|e es He _ IH]; cbn [extract_entries]; [apply keeps_ret|].
  destruct (e_regular e); [|exact IH]. destruct (He eq_refl) as [H1 H2].
  apply keeps_bind; [apply keeps_save; now rewrite place_entry|].
  intros [|]; [exact IH|apply keeps_ret].
Qed.

Lemma keeps_fetch : keeps J fetch_info.
Proof. apply keeps_bind; [apply keeps_http|]. intros [|body [|]]; try apply keeps_ret. apply keeps_lift. Qed.
End Outside.

Lemma save_stream_ok p data whole w w' : save_stream p data whole w = (w', Ok true) ->
  whole = true /\ saved p data 438 w w'.
Proof.
  intros H. apply bind_ok in H. destruct H as (w1 & o & Ho & H). destruct o as [l|]; [|discriminate].
  apply bind_ok in H. destruct H as (w2 & ok & Hw & H). unfold ret in H.
  assert (w2 = w') by congruence. subst w2. assert (Hk : ok && whole = true) by congruence.
  apply andb_true_iff in Hk. destruct Hk as [-> ->]. split; [reflexivity|]. now apply (written p data 438 w w1 w' l).
Qed.

Lemma change_net g w : w_net (fst (change g w)) = w_net w.
Proof. unfold change. now destruct (w_faults w) as [|[n|] fl]. Qed.

(** Operations that do not use the network. *)
Definition offline {A} (m : io A) : Prop := forall w, w_net (fst (m w)) = w_net w.
Lemma offline_ret {A} (x : A) : offline (ret x).
Proof. intros w. reflexivity. Qed.
Lemma offline_bind {A B} (m : io A) (k : A -> io B) : offline m -> (forall x, offline (k x)) -> offline (bind m k).
Proof.
  intros Hm Hk w. unfold bind. specialize (Hm w). destruct (m w) as [w1 [x| |n]]; cbn [fst] in *; auto.
  rewrite Hk. exact Hm.
Qed.
Lemma append_net l data : forall w, w_net (append_bytes l data w) = w_net w.
Proof.
  induction data as [|c data IH]; intros w; cbn [append_bytes]; [reflexivity|]. rewrite IH.
  now destruct (fs_get (w_fs w) l) as [[old m|]|].
Qed.
Lemma offline_write l d : offline (write_bytes l d).
Proof. intros w. unfold write_bytes. destruct (w_faults w) as [|[n|] fl]; cbn [fst]; now rewrite append_net. Qed.
Lemma offline_open p perm : offline (open_trunc p perm).
Proof.
  intros w. unfold open_trunc. destruct (resolve_new (w_disk w) p); [|reflexivity].
  destruct (fs_get (w_fs w) l) as [[c m|]|]; try reflexivity;
    refine (offline_bind _ _ (change_net _) (fun ok => offline_ret _) w).
Qed.
Lemma offline_save p d whole : offline (save_stream p d whole).
Proof.
  apply offline_bind; [apply offline_open|]. intros [l|]; [|apply offline_ret].
  apply offline_bind; [apply offline_write|]. intros ok. apply offline_ret.
Qed.
Lemma offline_make_dirs ls : offline (make_dirs ls).
Proof.
  induction ls as [|l ls IH]; cbn [make_dirs]; [apply offline_ret|].
  apply offline_bind; [intros w; apply change_net|]. intros [|]; [exact IH|apply offline_ret].
Qed.
Lemma offline_mkdir p : offline (mkdir_all p).
Proof. intros w. unfold mkdir_all. destruct p; [reflexivity|]. destruct (missing_dirs _ _ _); [apply offline_make_dirs|reflexivity]. Qed.
Lemma offline_unlink ls : offline (unlink_all ls).
Proof.
  induction ls as [|l ls IH]; cbn [unlink_all]; [apply offline_ret|].
  apply offline_bind; [intros w; apply change_net|]. intros [|]; [exact IH|apply offline_ret].
Qed.
Lemma offline_remove p : offline (remove_all p).
Proof. intros w. unfold remove_all. destruct (resolve (w_disk w) p); [apply offline_unlink|reflexivity]. Qed.
Lemma offline_step1 : offline step1.
Proof.
  apply offline_bind; [apply offline_remove|]. intros [|]; [|apply offline_ret].
  apply offline_bind; [apply offline_mkdir|]. intros ok. apply offline_ret.
Qed.

Lemma download_ok p u w w' : download p u w = (w', Ok true) ->
  exists body rest w1, w_net w = NetBody body true :: rest /\ w_net w' = rest /\ saved p body 438 w1 w' /\
    w_disk w1 = w_disk w /\ env w1 = env w.
Proof.
  intros H. apply bind_ok in H. destruct H as (w1 & r & Hr & H).
  unfold http_get in Hr. destruct u as [|c u].
  { assert (r = NetErr) by congruence. subst r. discriminate. }
  destruct (w_net w) as [|x rest] eqn:En; [assert (r = NetErr) by congruence; subst r; discriminate|].
  assert (x = r) by congruence. subst x. destruct r as [|body complete]; [discriminate|].
  assert (Hw1 : w1 = set_net rest (add_event (EGet (c :: u)) w)) by congruence.
  assert (Hn := offline_save p body complete w1). rewrite H in Hn. cbn [fst] in Hn.
  apply save_stream_ok in H. destruct H as [-> Hs]. exists body, rest, w1.
  split; [reflexivity|]. split; [rewrite Hn, Hw1; reflexivity|]. split; [exact Hs|]. rewrite Hw1. split; reflexivity.
Qed.

Lemma as_step_ok m w w' : as_step m w = (w', Ok None) -> m w = (w', Ok true).
Proof.
  intros H. apply bind_ok in H. destruct H as (w1 & ok & Hm & H). unfold ret in H.
  assert (w1 = w') by congruence. subst w1. destruct ok; [exact Hm|discriminate].
Qed.

Lemma run_one stage n s l w w' : run_stages stage ((n, s) :: l) w = (w', Ok None) ->
  exists w1, s (fst (announce stage n w)) = (w1, Ok None) /\ run_stages stage l w1 = (w', Ok None).
Proof.
  cbn [run_stages]. intros H. apply bind_ok in H. destruct H as (w0 & u & Ha & H).
  apply bind_ok in H. destruct H as (w1 & e & Hs & H). destruct e as [e|]; [discriminate|].
  exists w1. rewrite Ha. auto.
Qed.

Lemma announce_env stage n w : w_disk (fst (announce stage n w)) = w_disk w /\ w_net (fst (announce stage n w)) = w_net w /\
  env (fst (announce stage n w)) = env w /\ w_faults (fst (announce stage n w)) = w_faults w.
Proof. repeat split. Qed.

(** What is known once the archive and the checksum are there. *)
Lemma downloads_done stage C T info w w3 :
  run_stages stage (firstn 3 (steps C T info)) w = (w3, Ok None) ->
  exists a c rest ma mc, w_net w = NetBody a true :: NetBody c true :: rest /\
    fs_get (w_fs w3) (archive_name :: cacheL) = Some (NFile a ma) /\
    fs_get (w_fs w3) (checksum_name :: cacheL) = Some (NFile c mc).
Proof.
  unfold steps. cbn [firstn]. intros H.
  apply run_one in H. destruct H as (w1 & H1 & H).
  apply run_one in H. destruct H as (w2 & H2 & H).
  apply run_one in H. destruct H as (w3' & H3 & H). cbn [run_stages] in H.
  assert (w3' = w3) by (unfold ret in H; congruence). subst w3'.
  assert (N1 := offline_step1 (fst (announce stage 1 w))). rewrite H1 in N1. cbn [fst announce] in N1. cbn in N1.
  apply as_step_ok in H2. apply download_ok in H2. destruct H2 as (a & r2 & wa & E2 & N2 & S2 & _).
  apply as_step_ok in H3. apply download_ok in H3. destruct H3 as (c & r3 & wc & E3 & N3 & S3 & D3 & _).
  cbn in E2, E3. exists a, c, r3.
  destruct S2 as (la & Ra & _ & _ & _ & Ga & _ & _). apply resolve_new_place in Ra. rewrite place_archive in Ra. subst la.
  destruct S3 as (lc & Rc & _ & _ & _ & Gc & Oc & _). apply resolve_new_place in Rc. rewrite place_checksum in Rc. subst lc.
  eexists. eexists. split; [rewrite <- N1, E2; f_equal; rewrite <- E3; symmetry; exact N2|].
  split; [|exact Gc]. rewrite Oc by (intros X; discriminate X). unfold w_fs in *. rewrite D3. exact Ga.
Qed.

(** ** Removing the cache and installing *)

Lemma change_ok g w w' : change g w = (w', Ok true) -> w_fs w' = g (w_fs w) /\ env w' = env w /\
  w_trace w' = EFs (g (w_fs w)) :: w_trace w.
Proof.
  unfold change. destruct (w_faults w) as [|[n|] fl]; [|discriminate|]; intros [= <-]; repeat split.
Qed.

Lemma unlink_ok ls : forall w w', unlink_all ls w = (w', Ok true) -> env w' = env w /\
  forall k, k <> [] -> (In k ls -> fs_get (w_fs w') k = None) /\ (~ In k ls -> fs_get (w_fs w') k = fs_get (w_fs w) k).
Proof.
  induction ls as [|l ls IH]; intros w w' H; cbn [unlink_all] in H.
  - unfold ret in H. assert (w = w') by congruence. subst w'. split; [reflexivity|]. intros k _. split; [intros []|reflexivity].
  - apply bind_ok in H. destruct H as (w1 & ok & Hc & H). destruct ok; [|discriminate].
    apply change_ok in Hc. destruct Hc as (Hf & He & _). apply IH in H. destruct H as [He' H].
    split; [congruence|]. intros k Hk. destruct (H k Hk) as [H1 H2].
    destruct (in_dec (list_eq_dec (list_eq_dec Ascii.ascii_dec)) k ls) as [Hi|Hi].
    + split; [intros _; now apply H1|]. intros Hn. elim Hn. now right.
    + rewrite (H2 Hi), Hf. split.
      * intros [->|Hx]; [|contradiction]. now apply fs_get_del_same.
      * intros Hn. apply fs_get_del_other. intros ->. apply Hn. now left.
Qed.

Lemma fs_get_in f k n : k <> [] -> fs_get f k = Some n -> In k (map fst f).
Proof.
  intros Hk. unfold fs_get. destruct k as [|x k]; [congruence|]. clear Hk.
  destruct (find _ f) as [[k' n']|] eqn:Ef; [|discriminate]. intros _.
  apply find_some in Ef. destruct Ef as [Hin Heq]. cbn in Heq. apply loc_eqb_eq in Heq. subst k'.
  apply in_map_iff. exists (x :: k, n'). auto.
Qed.

Lemma below_nonempty k : below cacheL k = true -> k <> [].
Proof. intros H ->. discriminate. Qed.

Lemma removed_cache w w' : resolve (w_disk w) cache_dir = Some cacheL -> remove_all cache_dir w = (w', Ok true) ->
  env w' = env w /\ (forall k, below cacheL k = true -> fs_get (w_fs w') k = None) /\
  (forall k, below cacheL k = false -> fs_get (w_fs w') k = fs_get (w_fs w) k).
Proof.
  intros Hr. unfold remove_all. rewrite Hr. intros H. apply unlink_ok in H. destruct H as [He H].
  split; [exact He|]. split; intros k Hk.
  - assert (Hn : k <> []) by now apply below_nonempty. destruct (H k Hn) as [H1 H2].
    destruct (fs_get (w_fs w) k) as [n|] eqn:Eg.
    + apply H1. apply subtree_in. split; [|exact Hk]. now apply (fs_get_in _ _ n).
    + destruct (in_dec (list_eq_dec (list_eq_dec Ascii.ascii_dec)) k (subtree (w_fs w) cacheL)) as [Hi|Hi]; [now apply H1|now rewrite H2].
  - destruct k as [|x k]; [reflexivity|]. apply (H (x :: k)); [discriminate|].
    intros Hi. apply subtree_in in Hi. destruct Hi as [_ Hi]. congruence.
Qed.

(** /tmp and /tmp/1pass are directories. *)
Definition cache_dirs (f : fs) : Prop := fs_get f [b "tmp"] = Some NDir /\ fs_get f cacheL = Some NDir.

Lemma walk_step f cur e es : normal e -> walk f cur (e :: es) =
  if is_dir f cur then match fs_get f (e :: cur) with Some _ => walk f (e :: cur) es | None => None end else None.
Proof.
  intros H. apply normalb_ok in H. unfold normalb in H. cbn [walk]. destruct (is_dir f cur); cbn [negb]; [|reflexivity].
  destruct (bytes_eqb e []), (bytes_eqb e dot), (bytes_eqb e dotdot); try discriminate. reflexivity.
Qed.

Lemma walk_skip f es : walk f [] ([] :: es) = walk f [] es.
Proof. reflexivity. Qed.

Lemma normal_tmp : normal (b "tmp"). Proof. apply normalb_ok. reflexivity. Qed.
Lemma normal_app : normal (b "1pass"). Proof. apply normalb_ok. reflexivity. Qed.

Lemma resolve_cache D : resolve D cache_dir =
  match fs_get (d_fs D) [b "tmp"] with
  | Some NDir => match fs_get (d_fs D) cacheL with Some _ => Some cacheL | None => None end
  | _ => None
  end.
Proof.
  change (resolve D cache_dir) with (walk (d_fs D) [] ([] :: [b "tmp"; b "1pass"])).
  rewrite walk_skip, walk_step by exact normal_tmp.
  change (is_dir (d_fs D) []) with true. cbn iota.
  destruct (fs_get (d_fs D) [b "tmp"]) as [[c m|]|] eqn:E; [| |reflexivity]; rewrite walk_step by exact normal_app;
    unfold is_dir; rewrite E; reflexivity.
Qed.

Lemma resolve_binary D l : resolve D binary_path = Some l -> l = app_name :: cacheL /\ cache_dirs (d_fs D).
Proof.
  intros H. split.
  - apply resolve_place in H. now rewrite place_binary in H.
  - change (resolve D binary_path) with (walk (d_fs D) [] ([] :: [b "tmp"; b "1pass"; b "1pass"])) in H.
    rewrite walk_skip, walk_step in H by exact normal_tmp.
    change (is_dir (d_fs D) []) with true in H. cbn iota in H.
    destruct (fs_get (d_fs D) [b "tmp"]) as [n|] eqn:E1; [|discriminate].
    rewrite walk_step in H by exact normal_app. unfold is_dir at 1 in H. rewrite E1 in H.
    destruct n as [c m|]; [discriminate|]. fold cacheL in H.
    destruct (fs_get (d_fs D) cacheL) as [n|] eqn:E2; [|discriminate].
    rewrite walk_step in H by exact normal_app. unfold is_dir at 1 in H. rewrite E2 in H.
    destruct n as [c m|]; [discriminate|]. now split.
Qed.

Lemma replace_ok w w' exe : replace_binary binary_path w = (w', Ok true) -> w_exe w = Some exe ->
  let L := place (d_cwd (w_disk w)) exe in below cacheL L = false ->
  exists c m, fs_get (w_fs w) (app_name :: cacheL) = Some (NFile c m) /\
    w_fs w' = fs_set L (NFile c m) (fs_del (app_name :: cacheL) (w_fs w)) /\
    w_trace w' = EFs (w_fs w') :: w_trace w /\ env w' = env w /\ L <> [] /\ cache_dirs (w_fs w').
Proof.
  cbn zeta. intros H Hexe Hb. unfold replace_binary, bind, executable in H. rewrite Hexe in H.
  unfold rename in H. destruct (resolve (w_disk w) binary_path) as [ls|] eqn:Es; [|discriminate].
  destruct (resolve_new (w_disk w) exe) as [ld|] eqn:Ed; [|discriminate].
  apply resolve_binary in Es. destruct Es as [-> [D1 D2]]. apply resolve_new_place in Ed. rewrite <- Ed in *. clear Ed.
  destruct (fs_get (w_fs w) (app_name :: cacheL)) as [[c m|]|] eqn:Eg; try discriminate.
  assert (Hne : loc_eqb (app_name :: cacheL) ld = false).
  { apply loc_eqb_neq. intros <-. discriminate Hb. }
  rewrite Hne in H. exists c, m. split; [reflexivity|].
  assert (Hl : fs_get (w_fs w) ld <> Some NDir).
  { intros X. rewrite X in H. discriminate. }
  assert (Hc : change (fun f => fs_set ld (NFile c m) (fs_del (app_name :: cacheL) f)) w = (w', Ok true)).
  { destruct (fs_get (w_fs w) ld) as [[c1 m1|]|]; [exact H|congruence|exact H]. }
  apply change_ok in Hc. destruct Hc as (Hf & He & Ht). rewrite Hf. repeat split; try assumption.
  - intros ->. now apply Hl.
  - rewrite fs_get_set_other, fs_get_del_other; [exact D1|discriminate|]. intros <-. now apply Hl.
  - rewrite fs_get_set_other, fs_get_del_other; [exact D2|discriminate|]. intros <-. now apply Hl.
Qed.

Lemma before_mark {A} (s e : A) B earlier : forall later t,
  later ++ e :: earlier = t ++ s :: B -> ~ In s earlier -> e <> s -> In e B.
Proof.
  induction later as [|y later IH]; intros t H Hs He.
  - destruct t as [|x t]; cbn in H; injection H as H1 H2; [now elim He|]. elim Hs. rewrite H2. apply in_or_app. right. now left.
  - destruct t as [|x t]; cbn in H; injection H as H1 H2.
    + rewrite <- H2. apply in_or_app. right. now left.
    + now apply (IH t).
Qed.

(** The whole of a successful run. *)
Lemma ran_all stage C T info w w' : run_stages stage (steps C T info) w = (w', Ok None) ->
  exists w1 w5 w6, step1 (fst (announce stage 1 w)) = (w1, Ok None) /\
    run_stages stage (firstn 4 (tl (steps C T info))) w1 = (w5, Ok None) /\
    run_stages stage (firstn 5 (steps C T info)) w = (w5, Ok None) /\
    replace_binary binary_path (fst (announce stage 6 w5)) = (w6, Ok true) /\
    remove_all cache_dir (fst (announce stage 7 w6)) = (w', Ok true).
Proof.
  intros H. change (steps C T info) with (firstn 5 (steps C T info) ++
    [(6, as_step (replace_binary binary_path)); (7, as_step (remove_all cache_dir))]) in H.
  rewrite run_stages_app in H.
  destruct (run_stages stage (firstn 5 (steps C T info)) w) as [w5 [[e|]| |n]] eqn:H5; try discriminate.
  apply run_one in H. destruct H as (w6 & H6 & H). apply run_one in H. destruct H as (w7 & H7 & H).
  cbn [run_stages] in H. assert (w7 = w') by (unfold ret in H; congruence). subst w7.
  apply as_step_ok in H6, H7. change (firstn 5 (steps C T info)) with ((1, step1) :: firstn 4 (tl (steps C T info))) in H5.
  assert (H5' := H5). apply run_one in H5'. destruct H5' as (w1 & H1 & H5'). exists w1, w5, w6. auto.
Qed.
