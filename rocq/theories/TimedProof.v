(** The model with time does what the model without time does, and how long it waits. *)
From Verif Require Import Base GoStrings Json Crypto Path Fs Domain World Config Updater GoTime Timed.

(** ** Parts that do not look at the network *)

Definition net_free {A} (m : io A) : Prop := forall n w, m (set_net n w) = (set_net n (fst (m w)), snd (m w)).

Lemma free_ret {A} (x : A) : net_free (ret x). Proof. intros n w. reflexivity. Qed.
Lemma free_lift {A} (r : res A) : net_free (lift r). Proof. intros n w. reflexivity. Qed.
Lemma free_bind {A B} (m : io A) (f : A -> io B) : net_free m -> (forall x, net_free (f x)) -> net_free (bind m f).
Proof.
  intros Hm Hf n w. unfold bind. rewrite (Hm n w). destruct (m w) as [w1 [x| |k]]; cbn [fst snd]; [apply Hf|reflexivity|reflexivity].
Qed.
Lemma free_change g : net_free (change g).
Proof. intros n w. unfold change. cbn [set_net w_faults]. destruct (w_faults w) as [|[k|] fl]; reflexivity. Qed.
Lemma append_set_net l data : forall n w, append_bytes l data (set_net n w) = set_net n (append_bytes l data w).
Proof.
  induction data as [|c data IH]; intros n w; [reflexivity|]. cbn [append_bytes].
  change (w_fs (set_net n w)) with (w_fs w). destruct (fs_get (w_fs w) l) as [[old m|]|]; rewrite <- IH; reflexivity.
Qed.
Lemma free_write l data : net_free (write_bytes l data).
Proof.
  intros n w. unfold write_bytes. cbn [set_net w_faults]. destruct (w_faults w) as [|[k|] fl]; cbn [fst snd]; rewrite <- append_set_net; reflexivity.
Qed.
Lemma free_open path perm : net_free (open_trunc path perm).
Proof.
  intros n w. unfold open_trunc. change (w_disk (set_net n w)) with (w_disk w). change (w_fs (set_net n w)) with (w_fs w).
  change (w_umask (set_net n w)) with (w_umask w). destruct (resolve_new (w_disk w) path) as [l|]; [|reflexivity].
  destruct (fs_get (w_fs w) l) as [[c m|]|]; try reflexivity; apply free_bind; intros; first [apply free_change|apply free_ret].
Qed.
Lemma free_write_file path data perm : net_free (write_file path data perm).
Proof. apply free_bind; [apply free_open|]. intros [l|]; [apply free_write|apply free_ret]. Qed.
Lemma free_make_dirs ls : net_free (make_dirs ls).
Proof. induction ls as [|l ls IH]; [apply free_ret|]. apply free_bind; [apply free_change|]. intros [|]; [exact IH|apply free_ret]. Qed.
Lemma free_mkdir path : net_free (mkdir_all path).
Proof.
  intros n w. unfold mkdir_all. destruct path; [reflexivity|]. change (w_disk (set_net n w)) with (w_disk w). change (w_fs (set_net n w)) with (w_fs w).
  destruct (missing_dirs _ _ _); [apply free_make_dirs|reflexivity].
Qed.
Lemma free_unlink ls : net_free (unlink_all ls).
Proof. induction ls as [|l ls IH]; [apply free_ret|]. apply free_bind; [apply free_change|]. intros [|]; [exact IH|apply free_ret]. Qed.
Lemma free_remove path : net_free (remove_all path).
Proof.
  intros n w. unfold remove_all. change (w_disk (set_net n w)) with (w_disk w). change (w_fs (set_net n w)) with (w_fs w).
  destruct (resolve _ _); [apply free_unlink|reflexivity].
Qed.
Lemma free_rename src dst : net_free (rename src dst).
Proof.
  intros n w. unfold rename. change (w_disk (set_net n w)) with (w_disk w). change (w_fs (set_net n w)) with (w_fs w).
  destruct (resolve (w_disk w) src) as [ls|], (resolve_new (w_disk w) dst) as [ld|]; try reflexivity.
  destruct (fs_get (w_fs w) ls) as [[c m|]|], (fs_get (w_fs w) ld) as [[c' m'|]|]; try reflexivity;
    destruct (loc_eqb ls ld); try reflexivity; apply free_change.
Qed.
Lemma free_stat p : net_free (io_stat p). Proof. intros n w. reflexivity. Qed.
Lemma free_read p : net_free (io_read p). Proof. intros n w. reflexivity. Qed.
Lemma free_now : net_free now. Proof. intros n w. unfold now. cbn [set_net w_clock]. destruct (w_clock w); reflexivity. Qed.
Lemma free_exe : net_free executable. Proof. intros n w. reflexivity. Qed.
Lemma free_announce stage k : net_free (announce stage k). Proof. intros n w. reflexivity. Qed.
Lemma free_timestamp dir : net_free (check_timestamp dir).
Proof.
  apply free_bind; [apply free_now|]. intros t. apply free_bind; [apply free_stat|]. intros d.
  apply free_bind; [destruct d; [apply free_ret|apply free_mkdir]|]. intros _. apply free_bind; [apply free_write_file|]. intros _. apply free_ret.
Qed.
Lemma free_should period dir : net_free (should_check period dir).
Proof.
  apply free_bind; [apply free_stat|]. intros s. apply free_bind; [apply free_read|]. intros c.
  destruct (parse_int _) as [saved fine]. apply free_bind; [apply free_now|]. intros t. apply free_ret.
Qed.
Lemma free_stream path data whole : net_free (save_stream path data whole).
Proof. apply free_bind; [apply free_open|]. intros [l|]; [|apply free_ret]. apply free_bind; [apply free_write|]. intros ok. apply free_ret. Qed.
Lemma free_extract T src dst : net_free (extract T src dst).
Proof.
  apply free_bind; [apply free_read|]. intros [s|]; [|apply free_ret]. destruct (T s) as [[es proper]|]; [|apply free_ret].
  induction es as [|e es IH]; [apply free_ret|]. cbn [extract_entries]. destruct (e_regular e); [|exact IH].
  apply free_bind; [apply free_stream|]. intros [|]; [exact IH|apply free_ret].
Qed.
Lemma free_replace src : net_free (replace_binary src).
Proof. apply free_bind; [apply free_exe|]. intros [dst|]; [apply free_rename|apply free_ret]. Qed.
Lemma free_try m k : net_free m -> net_free k -> net_free (try_step m k).
Proof. intros Hm Hk. apply free_bind; [exact Hm|]. intros [|]; [exact Hk|apply free_ret]. Qed.
Lemma free_validate C binary file : net_free (validate_checksum C binary file).
Proof.
  apply free_bind; [apply free_read|]. intros [text|]; [|apply free_ret]. apply free_bind; [apply free_read|]. intros [data|]; [|apply free_ret].
  destruct (fields _); [apply free_lift|apply free_ret].
Qed.

(** ** Refinement *)

(** What the servers answer with a timeout. *)
Definition reply (timeout : Z) (s : server) : net_reply :=
  match exchange timeout s with Some (_, r) => r | None => NetErr end.
Definition as_world (timeout : Z) (t : tworld) : world := set_net (map (reply timeout) (t_servers t)) (t_world t).

Definition refines {A} (timeout : Z) (m : tio A) (m0 : io A) : Prop := forall t t' r,
  m t = Some (t', r) -> m0 (as_world timeout t) = (as_world timeout t', r).

Lemma refines_untimed {A} timeout (m : io A) : net_free m -> refines timeout (untimed m) m.
Proof.
  intros H t t' r. unfold untimed, as_world. rewrite H. destruct (m (t_world t)) as [w x]. intros [= <- <-]. reflexivity.
Qed.
Lemma refines_bind {A B} timeout (m : tio A) m0 (f : A -> tio B) f0 :
  refines timeout m m0 -> (forall x, refines timeout (f x) (f0 x)) -> refines timeout (tbind m f) (bind m0 f0).
Proof.
  intros Hm Hf t t' r. unfold tbind, bind. destruct (m t) as [[t1 [x| |n]]|] eqn:E; [| | |discriminate]; rewrite (Hm _ _ _ E).
  - apply Hf.
  - intros [= <- <-]. reflexivity.
  - intros [= <- <-]. reflexivity.
Qed.
Lemma refines_get timeout url : refines timeout (timed_get timeout url) (http_get url).
Proof.
  intros t t' r. unfold timed_get, http_get, as_world. destruct url as [|c u]; [intros [= <- <-]; reflexivity|].
  destruct (t_servers t) as [|s ss]; cbn [map set_net w_net]; [intros [= <- <-]; reflexivity|].
  destruct (exchange timeout s) as [[d x]|] eqn:Ex; [|discriminate]. intros [= <- <-].
  replace (reply timeout s) with x by (unfold reply; rewrite Ex; reflexivity). reflexivity.
Qed.
Lemma refines_fetch timeout : refines timeout (timed_fetch timeout) fetch_info.
Proof.
  apply refines_bind; [apply refines_get|]. intros r. apply refines_untimed. destruct r as [|body [|]]; first [apply free_ret|apply free_lift].
Qed.
Lemma refines_download timeout dst url : refines timeout (timed_download dst url timeout) (download dst url).
Proof.
  apply refines_bind; [apply refines_get|]. intros r. apply refines_untimed. destruct r; [apply free_ret|apply free_stream].
Qed.
Lemma refines_check period timeout force dir : refines timeout (timed_check period timeout force dir) (check_for_update period force dir).
Proof.
  apply refines_bind; [apply refines_untimed; destruct force; [apply free_ret|apply free_should]|]. intros [|]; cbn [negb].
  2: apply refines_untimed, free_ret.
  apply refines_bind; [apply refines_fetch|]. intros [[info|]|e]; apply refines_untimed; [| |apply free_ret];
    (apply free_bind; [apply free_timestamp|intros _; apply free_ret]).
Qed.
Lemma refines_try timeout m m0 k k0 : refines timeout m m0 -> refines timeout k k0 -> refines timeout (timed_try m k) (try_step m0 k0).
Proof. intros Hm Hk. apply refines_bind; [exact Hm|]. intros [|]; [exact Hk|apply refines_untimed, free_ret]. Qed.
Lemma refines_update C T stage timeout : refines timeout (timed_update C T stage timeout) (update C T stage).
Proof.
  apply refines_bind; [apply refines_fetch|]. intros [[info|]|e]; try (apply refines_untimed, free_ret).
  destruct (ui_newer info); cbn [negb]; [|apply refines_untimed, free_ret].
  apply refines_bind; [apply refines_untimed, free_announce|]. intros _.
  apply refines_try; [apply refines_untimed, free_remove|]. apply refines_try; [apply refines_untimed, free_mkdir|].
  apply refines_bind; [apply refines_untimed, free_announce|]. intros _. apply refines_try; [apply refines_download|].
  apply refines_bind; [apply refines_untimed, free_announce|]. intros _. apply refines_try; [apply refines_download|].
  apply refines_untimed. apply free_bind; [apply free_announce|]. intros _. apply free_try; [apply free_extract|].
  apply free_bind; [apply free_announce|]. intros _. apply free_bind; [apply free_validate|]. intros [e|]; [apply free_ret|].
  apply free_bind; [apply free_announce|]. intros _. apply free_try; [apply free_replace|].
  apply free_bind; [apply free_announce|]. intros _. apply free_try; [apply free_remove|apply free_ret].
Qed.

(** ** Waiting *)

(** [m] returns and waits for at most [k] exchanges, each of which ends within [d]. *)
Definition waits {A} (ok : server -> Prop) (d : Z) (k : nat) (m : tio A) : Prop := forall t,
  Forall ok (t_servers t) -> exists t' r, m t = Some (t', r) /\ Forall ok (t_servers t') /\
    (t_waited t <= t_waited t' <= t_waited t + Z.of_nat k * d)%Z.

Section Waits.
Variable ok : server -> Prop.
Variable d : Z.
Hypothesis Hd : (0 <= d)%Z.

Lemma waits_untimed {A} (m : io A) : waits ok d 0 (untimed m).
Proof. intros t H. unfold untimed. destruct (m (t_world t)) as [w r]. eexists; eexists. split; [reflexivity|]. split; [exact H|]. cbn. lia. Qed.
Lemma waits_more {A} k k' (m : tio A) : waits ok d k m -> k <= k' -> waits ok d k' m.
Proof. intros H L t Ht. destruct (H t Ht) as (t' & r & E & F & B). exists t', r. split; [exact E|]. split; [exact F|]. nia. Qed.
Lemma waits_bind {A B} k k' (m : tio A) (f : A -> tio B) : waits ok d k m -> (forall x, waits ok d k' (f x)) -> waits ok d (k + k') (tbind m f).
Proof.
  intros Hm Hf t Ht. destruct (Hm t Ht) as (t1 & r & E & F & W). unfold tbind. rewrite E. destruct r as [x| |n].
  - destruct (Hf x t1 F) as (t2 & r2 & E2 & F2 & W2). exists t2, r2. split; [exact E2|]. split; [exact F2|]. lia.
  - exists t1, Panic. split; [reflexivity|]. split; [exact F|]. lia.
  - exists t1, (Exit n). split; [reflexivity|]. split; [exact F|]. lia.
Qed.
Lemma waits_get timeout url : (forall s, ok s -> exists x r, exchange timeout s = Some (x, r) /\ (0 <= x <= d)%Z) -> waits ok d 1 (timed_get timeout url).
Proof.
  intros H t Ht. unfold timed_get. destruct url as [|c u]; [eexists; eexists; split; [reflexivity|]; split; [exact Ht|lia]|].
  destruct (t_servers t) as [|s ss] eqn:E; [eexists; eexists; split; [reflexivity|]; split; [apply Forall_nil|cbn [t_waited]; lia]|].
  inversion Ht as [|? ? Hs Hss]; subst. destruct (H s Hs) as (x & r & Ex & Hx). rewrite Ex.
  eexists; eexists; split; [reflexivity|]; split; [exact Hss|cbn [t_waited]; lia].
Qed.

Variable timeout : Z.
Hypothesis Hok : forall s, ok s -> exists x r, exchange timeout s = Some (x, r) /\ (0 <= x <= d)%Z.

Lemma waits_fetch : waits ok d 1 (timed_fetch timeout).
Proof. apply (waits_bind 1 0); [now apply waits_get|]. intros r. apply waits_untimed. Qed.
Lemma waits_check period force dir : waits ok d 1 (timed_check period timeout force dir).
Proof.
  apply (waits_bind 0 1); [apply waits_untimed|]. intros [|]; cbn [negb]; [|apply (waits_more 0); [apply waits_untimed|lia]].
  apply (waits_bind 1 0); [apply waits_fetch|]. intros r. apply waits_untimed.
Qed.
Lemma waits_try k k' m c : waits ok d k m -> waits ok d k' c -> waits ok d (k + k') (timed_try m c).
Proof. intros Hm Hc. apply waits_bind; [exact Hm|]. intros [|]; [exact Hc|apply (waits_more 0); [apply waits_untimed|lia]]. Qed.
Lemma waits_download dst url : waits ok d 1 (timed_download dst url timeout).
Proof. apply (waits_bind 1 0); [now apply waits_get|]. intros r. apply waits_untimed. Qed.
Lemma waits_update C T stage : waits ok d 3 (timed_update C T stage timeout).
Proof.
  apply (waits_bind 1 2); [apply waits_fetch|]. intros [[info|]|e]; try (apply (waits_more 0); [apply waits_untimed|lia]).
  destruct (ui_newer info); cbn [negb]; [|apply (waits_more 0); [apply waits_untimed|lia]].
  apply (waits_bind 0 2); [apply waits_untimed|]. intros _. apply (waits_try 0 2); [apply waits_untimed|]. apply (waits_try 0 2); [apply waits_untimed|].
  apply (waits_bind 0 2); [apply waits_untimed|]. intros _. apply (waits_try 1 1); [apply waits_download|].
  apply (waits_bind 0 1); [apply waits_untimed|]. intros _. apply (waits_try 1 0); [apply waits_download|]. apply waits_untimed.
Qed.
End Waits.
