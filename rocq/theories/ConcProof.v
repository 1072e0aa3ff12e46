(** The goroutine of the update check and the events of the GUI do not get into each other's way. *)
From Verif Require Import Base Utf8 GoStrings GoStringsProof Json Civil Crypto Path Fs FsProof Domain Repos ItemService Session World WorldProof
  Config Updater UpdateProof Cli CliProof Spec_Vault VaultProof Gui Spec_Gui GuiProof GuiWorld Properties_Cli2 Conc.

Local Open Scope st_scope.

Section Files.
(** The file the check writes. *)
Variable X : loc.

(** Disks that differ at most in that file. *)
Record near (D1 D2 : disk) : Prop := {
  n_cwd : d_cwd D1 = d_cwd D2;
  n_perm : d_unreadable D1 = d_unreadable D2;
  n_off : forall l, l <> X -> fs_get (d_fs D1) l = fs_get (d_fs D2) l;
  n_dir : is_dir (d_fs D1) X = is_dir (d_fs D2) X;
}.
Lemma near_refl D : near D D.
Proof. now constructor. Qed.
Lemma near_sym D1 D2 : near D1 D2 -> near D2 D1.
Proof. intros []. constructor; auto. intros l Hl. symmetry. auto. Qed.
Lemma near_trans D1 D2 D3 : near D1 D2 -> near D2 D3 -> near D1 D3.
Proof. intros [] []. constructor; try congruence. intros l Hl. rewrite n_off0 by exact Hl. auto. Qed.

Lemma near_is_dir D1 D2 l : near D1 D2 -> is_dir (d_fs D1) l = is_dir (d_fs D2) l.
Proof.
  intros []. destruct (list_eq_dec (list_eq_dec Ascii.ascii_dec) l X) as [->|H]; [exact n_dir0|].
  unfold is_dir. now rewrite n_off0.
Qed.

Lemma near_walk D1 D2 es : near D1 D2 -> forall cur, es <> [] -> Some (last es []) <> hd_error X ->
  walk (d_fs D1) cur es = walk (d_fs D2) cur es.
Proof.
  intros N. induction es as [|e es IH]; intros cur Hne Hl; [congruence|]. cbn [walk].
  rewrite (near_is_dir _ _ cur N). destruct (negb (is_dir (d_fs D2) cur)); [reflexivity|].
  destruct es as [|e' es].
  - cbn [last] in Hl. cbn [walk]. destruct (bytes_eqb e [] || bytes_eqb e dot); [reflexivity|].
    destruct (bytes_eqb e dotdot); [reflexivity|]. rewrite (n_off _ _ N); [reflexivity|]. intros E. apply Hl. now rewrite <- E.
  - specialize (fun cur => IH cur ltac:(discriminate) Hl).
    destruct (bytes_eqb e [] || bytes_eqb e dot); [apply IH|]. destruct (bytes_eqb e dotdot); [apply IH|].
    destruct (list_eq_dec (list_eq_dec Ascii.ascii_dec) (e :: cur) X) as [E|E].
    + assert (A : forall n D, fs_get (d_fs D) (e :: cur) = n -> is_dir (d_fs D) (e :: cur) = is_dir (d_fs D2) (e :: cur) ->
        match n with Some _ => walk (d_fs D) (e :: cur) (e' :: es) | None => None end =
        if is_dir (d_fs D2) (e :: cur) then walk (d_fs D) (e :: cur) (e' :: es) else None).
      { intros n D En Ed. destruct n as [n|].
        - destruct (is_dir (d_fs D2) (e :: cur)) eqn:E2; [reflexivity|]. cbn [walk]. now rewrite Ed.
        - rewrite <- Ed. unfold is_dir. now rewrite En. }
      rewrite (A _ D1 eq_refl (near_is_dir _ _ _ N)), (A _ D2 eq_refl eq_refl). now rewrite IH.
    + rewrite (n_off _ _ N) by exact E. destruct (fs_get (d_fs D2) (e :: cur)); [apply IH|reflexivity].
Qed.

Lemma near_resolve D1 D2 p : near D1 D2 -> Some (last (split_slash p) []) <> hd_error X -> resolve D1 p = resolve D2 p.
Proof.
  intros N H. unfold resolve. destruct p as [|c p]; [reflexivity|]. rewrite (n_cwd _ _ N).
  apply near_walk; [exact N|apply split_slash_nonempty|exact H].
Qed.

Lemma last_join p n : p <> [] -> plain_name n -> last (split_slash (join_path [p; n])) [] = n.
Proof.
  intros Hp Hn. rewrite (join_path_text p [n] Hp); [|discriminate|auto].
  assert (A : forall x, last (split_slash (x ++ slash :: n)) [] = n).
  { intros x. rewrite split_slash_app_slash, (split_slash_plain n) by apply Hn. apply last_last. }
  set (es := clean_elems _ _ _). destruct es as [|e es].
  - cbn [Datatypes.app join_slash]. destruct (rooted p); [exact (A [])|]. rewrite split_slash_plain by apply Hn. reflexivity.
  - rewrite join_slash_snoc by discriminate. destruct (rooted p); [|apply A]. exact (A (slash :: join_slash (e :: es))).
Qed.

Hypothesis Hname : hd_error X = Some last_check_file.

Lemma near_list D1 D2 l : near D1 D2 ->
  filter (match_toks band_toks) (list_dir (d_fs D1) l) = filter (match_toks band_toks) (list_dir (d_fs D2) l).
Proof.
  intros N. apply sorted_names_unique.
  - apply filter_sorted, list_dir_sorted.
  - apply filter_sorted, list_dir_sorted.
  - intros n. rewrite !filter_In, !list_dir_in. split; intros [H1 H2]; (split; [|exact H2]).
    + rewrite <- (n_off _ _ N); [exact H1|]. intros E. rewrite <- E in Hname. injection Hname as ->. discriminate H2.
    + rewrite (n_off _ _ N); [exact H1|]. intros E. rewrite <- E in Hname. injection Hname as ->. discriminate H2.
Qed.

Lemma near_load D1 D2 Or vault : near D1 D2 -> vault <> [] -> has_meta vault = false -> load_items Or D1 vault = load_items Or D2 vault.
Proof.
  intros N Hv Hm. destruct (join_default_nonempty vault Hv) as [Hd1 Hd2].
  set (d := join_path [vault; profile_dir]) in *.
  assert (G : forall D, glob D (bands_glob vault) = Some (glob_in D band_toks d)).
  { intros D. unfold bands_glob.
    replace (join_path [vault; profile_dir; band_pattern]) with (d ++ slash :: band_pattern).
    + apply glob_plain; auto.
      * apply join_path_meta; auto using default_plain; try discriminate.
      * apply band_pattern_plain.
    + unfold d. symmetry. apply (join_path_snoc vault [profile_dir] band_pattern);
        auto using default_plain, band_pattern_plain. discriminate. }
  assert (E : glob_in D1 band_toks d = glob_in D2 band_toks d).
  { unfold glob_in. rewrite (near_resolve D1 D2 d N).
    2:{ unfold d. rewrite (last_join vault profile_dir Hv default_plain), Hname. discriminate. }
    destruct (resolve D2 d) as [l|]; [|reflexivity]. rewrite (near_is_dir _ _ l N), (n_perm _ _ N).
    destruct (is_dir (d_fs D2) l && negb (d_unreadable D2 l)); [|reflexivity]. now rewrite (near_list D1 D2 l N). }
  unfold load_items. rewrite !G, E. destruct (glob_in D2 band_toks d) as [|f fs] eqn:Eg; [reflexivity|].
  assert (R : forall files, Forall (fun f => read_file D1 f = read_file D2 f) files -> read_bands D1 files = read_bands D2 files).
  { intros files. rewrite !read_bands_contents. induction 1 as [|x xs Hx Hxs IH]; [reflexivity|]. cbn [map cat_bands].
    rewrite Hx. now rewrite IH. }
  rewrite R; [reflexivity|]. rewrite <- Eg. unfold glob_in. destruct (resolve D2 d) as [l|]; [|constructor].
  destruct (_ && _); [|constructor]. apply Forall_map, Forall_forall. intros n Hn. apply filter_In in Hn. destruct Hn as [_ Hn].
  assert (Hp := band_name_plain n Hn). assert (Ln := last_join d n Hd1 Hp).
  assert (Q : n <> last_check_file) by (intros ->; discriminate Hn).
  unfold read_file. rewrite (near_resolve D1 D2 _ N) by (rewrite Ln, Hname; congruence).
  destruct (resolve D2 (join_path [d; n])) as [k|] eqn:Ek; [|reflexivity]. rewrite (n_perm _ _ N).
  rewrite (n_off _ _ N); [reflexivity|]. intros ->. apply Q.
  apply resolve_place in Ek. rewrite place_join in Ek by exact Hd1. rewrite (split_slash_plain n) in Ek by apply Hp.
  rewrite lexical_normal in Ek by apply Hp. rewrite Ek in Hname. now injection Hname.
Qed.

(** ** What the check does to the files *)
Variable dir : bytes.
Hypothesis Hroot : rooted dir = true.
Hypothesis HX : X = last_check_file :: place [] dir.

(** The settings directory is there. *)
Definition present (D : disk) : Prop := stat D dir <> None.

Lemma grown_walk D1 D2 es : near D1 D2 -> (fs_get (d_fs D1) X <> None -> fs_get (d_fs D2) X <> None) ->
  forall cur l, walk (d_fs D1) cur es = Some l -> walk (d_fs D2) cur es = Some l.
Proof.
  intros N G. induction es as [|e es IH]; intros cur l; cbn [walk]; [auto|].
  rewrite (near_is_dir _ _ cur N). destruct (negb (is_dir (d_fs D2) cur)); [auto|].
  destruct (bytes_eqb e [] || bytes_eqb e dot); [apply IH|]. destruct (bytes_eqb e dotdot); [apply IH|].
  destruct (list_eq_dec (list_eq_dec Ascii.ascii_dec) (e :: cur) X) as [E|E].
  - rewrite E. destruct (fs_get (d_fs D1) X); [|discriminate].
    destruct (fs_get (d_fs D2) X); [|exfalso; now apply G]. apply IH.
  - rewrite (n_off _ _ N) by exact E. destruct (fs_get (d_fs D2) (e :: cur)); [apply IH|discriminate].
Qed.

Lemma grown_present D1 D2 : near D1 D2 -> (fs_get (d_fs D1) X <> None -> fs_get (d_fs D2) X <> None) -> present D1 -> present D2.
Proof.
  intros N G. unfold present, stat. destruct (resolve D1 dir) as [l|] eqn:E; [|congruence].
  assert (E2 : resolve D2 dir = Some l).
  { unfold resolve in *. destruct dir as [|c d]; [discriminate|]. rewrite <- (n_cwd _ _ N). exact (grown_walk D1 D2 _ N G _ _ E). }
  rewrite E2. destruct (list_eq_dec (list_eq_dec Ascii.ascii_dec) l X) as [->|H]; [exact G|]. now rewrite (n_off _ _ N).
Qed.

(** [m] does no more to the files than the check does. *)
Definition calm {A} (m : io A) : Prop := forall w,
  near (w_disk w) (w_disk (fst (m w))) /\ (fs_get (w_fs w) X <> None -> fs_get (w_fs (fst (m w))) X <> None).

Lemma calm_same {A} (m : io A) : (forall w, w_disk (fst (m w)) = w_disk w) -> calm m.
Proof. intros H w. unfold w_fs. rewrite H. split; [apply near_refl|auto]. Qed.
Lemma calm_bind {A B} (m : io A) (k : A -> io B) : calm m -> (forall x, calm (k x)) -> calm (bind m k).
Proof.
  intros Hm Hk w. unfold bind. specialize (Hm w). destruct (m w) as [w1 [x| |n]]; cbn [fst] in *; try exact Hm.
  destruct Hm as [N1 G1]. destruct (Hk x w1) as [N2 G2]. split; [exact (near_trans _ _ _ N1 N2)|auto].
Qed.
Lemma calm_ret {A} (x : A) : calm (ret x).
Proof. now apply calm_same. Qed.

Lemma put_file w c m : is_dir (w_fs w) X = false ->
  near (w_disk w) (w_disk (put_fs (fs_set X (NFile c m) (w_fs w)) w)) /\
  fs_get (w_fs (put_fs (fs_set X (NFile c m) (w_fs w)) w)) X <> None.
Proof.
  intros H. assert (X <> []) by (rewrite HX; discriminate). split.
  - constructor; try reflexivity.
    + intros l Hl. cbn [put_fs add_event set_disk w_disk d_fs]. now rewrite fs_get_set_other.
    + cbn [put_fs add_event set_disk w_disk d_fs]. change (d_fs (w_disk w)) with (w_fs w). rewrite H. unfold is_dir. now rewrite fs_get_set_same.
  - unfold w_fs. cbn [put_fs add_event set_disk w_disk d_fs]. rewrite fs_get_set_same by assumption. discriminate.
Qed.

Lemma calm_change_at w c m : is_dir (w_fs w) X = false ->
  near (w_disk w) (w_disk (fst (change (fs_set X (NFile c m)) w))) /\
  (fs_get (w_fs w) X <> None -> fs_get (w_fs (fst (change (fs_set X (NFile c m)) w))) X <> None).
Proof.
  intros H. unfold change. destruct (w_faults w) as [|[n|] fl]; cbn [fst].
  - destruct (put_file w c m H). auto.
  - split; [apply near_refl|auto].
  - destruct (put_file (set_faults fl w) c m H). auto.
Qed.

Lemma open_place w l : resolve_new (w_disk w) (join_path [dir; last_check_file]) = Some l -> l = X.
Proof.
  intros H. apply resolve_new_place in H. rewrite H, HX. rewrite place_join by (destruct dir; discriminate).
  unfold place. rewrite Hroot. reflexivity.
Qed.

Lemma calm_open perm : calm (open_trunc (join_path [dir; last_check_file]) perm).
Proof.
  intros w. unfold open_trunc. destruct (resolve_new (w_disk w) _) as [l|] eqn:E; [|now apply (calm_ret (@None loc))].
  rewrite (open_place w l E).
  assert (G : forall c m, is_dir (w_fs w) X = false -> near (w_disk w) (w_disk (fst (bind (change (fs_set X (NFile c m))) (fun ok => ret (if ok then Some X else None)) w))) /\
    (fs_get (w_fs w) X <> None -> fs_get (w_fs (fst (bind (change (fs_set X (NFile c m))) (fun ok => ret (if ok then Some X else None)) w))) X <> None)).
  { intros c m Hd. assert (H := calm_change_at w c m Hd). unfold bind. destruct (change (fs_set X (NFile c m)) w) as [w1 [x| |n]]; exact H. }
  destruct (fs_get (w_fs w) X) as [[c m|]|] eqn:Ef.
  - apply G. unfold is_dir. now rewrite Ef.
  - split; [apply near_refl|cbn [fst ret]; now rewrite Ef].
  - apply G. unfold is_dir. now rewrite Ef.
Qed.

Lemma open_answer perm w w' l : open_trunc (join_path [dir; last_check_file]) perm w = (w', Ok (Some l)) -> l = X.
Proof.
  unfold open_trunc. destruct (resolve_new (w_disk w) _) as [k|] eqn:E; [|discriminate]. rewrite (open_place w k E). clear E.
  unfold bind, change, ret. destruct (fs_get (w_fs w) X) as [[c m|]|]; try discriminate; destruct (w_faults w) as [|[n|] fl]; congruence.
Qed.

Lemma calm_append data : forall w, near (w_disk w) (w_disk (append_bytes X data w)) /\
  (fs_get (w_fs w) X <> None -> fs_get (w_fs (append_bytes X data w)) X <> None).
Proof.
  induction data as [|c data IH]; intros w; cbn [append_bytes]; [split; [apply near_refl|auto]|].
  destruct (fs_get (w_fs w) X) as [[old m|]|] eqn:E.
  - destruct (put_file w (old ++ [c]) m) as [N G]; [unfold is_dir; now rewrite E|].
    destruct (IH (put_fs (fs_set X (NFile (old ++ [c]) m) (w_fs w)) w)) as [N2 G2]. split; [exact (near_trans _ _ _ N N2)|auto].
  - rewrite <- E. apply IH.
  - destruct (IH w) as [N _]. split; [exact N|congruence].
Qed.

Lemma calm_write data : calm (write_bytes X data).
Proof.
  intros w. unfold write_bytes. destruct (w_faults w) as [|[n|] fl]; cbn [fst].
  - apply calm_append.
  - exact (calm_append (firstn n data) (set_faults fl w)).
  - exact (calm_append data (set_faults fl w)).
Qed.

Lemma calm_fetch : calm fetch_info.
Proof.
  apply calm_bind.
  - apply calm_same. intros w. unfold http_get. destruct github_releases; [reflexivity|]. now destruct (w_net w).
  - intros [|body [|]]; [apply calm_ret| |apply calm_ret]. now apply calm_same.
Qed.
Lemma calm_now : calm now.
Proof. apply calm_same. intros w. unfold now. now destruct (w_clock w). Qed.

(** The check as a whole, if the settings directory is there. *)
Definition quiet {A} (m : io A) : Prop := forall w, present (w_disk w) ->
  near (w_disk w) (w_disk (fst (m w))) /\ present (w_disk (fst (m w))).
Lemma calm_quiet {A} (m : io A) : calm m -> quiet m.
Proof. intros H w P. destruct (H w) as [N G]. split; [exact N|exact (grown_present _ _ N G P)]. Qed.
Lemma quiet_bind {A B} (m : io A) (k : A -> io B) : quiet m -> (forall x, quiet (k x)) -> quiet (bind m k).
Proof.
  intros Hm Hk w P. specialize (Hm w P). unfold bind. destruct (m w) as [w1 [x| |n]]; cbn [fst] in *; try exact Hm.
  destruct Hm as [N P1]. destruct (Hk x w1 P1) as [N2 P2]. split; [exact (near_trans _ _ _ N N2)|exact P2].
Qed.
Lemma quiet_ret {A} (x : A) : quiet (ret x).
Proof. apply calm_quiet, calm_ret. Qed.

Lemma quiet_save data : quiet (write_file (join_path [dir; last_check_file]) data 420).
Proof.
  apply calm_quiet. unfold write_file. intros v. unfold bind. assert (H1 := calm_open 420 v).
  destruct (open_trunc (join_path [dir; last_check_file]) 420 v) as [v1 [[l|]| |n']] eqn:Eo; cbn [fst] in H1; try exact H1.
  rewrite (open_answer _ _ _ _ Eo). destruct H1 as [N1 G1]. destruct (calm_write data v1) as [N2 G2].
  split; [exact (near_trans _ _ _ N1 N2)|auto].
Qed.

Lemma quiet_stamp : quiet (check_timestamp dir).
Proof.
  unfold check_timestamp. apply quiet_bind; [apply calm_quiet, calm_now|]. intros t w P.
  set (k := write_file _ _ _ ;;; ret tt).
  assert (K : quiet k) by (apply quiet_bind; [apply quiet_save|intros; apply quiet_ret]).
  assert (P' := P). unfold present in P'.
  replace ((d <- io_stat dir;; (match d with Some _ => ret true | None => mkdir_all dir end;;; k)) w) with (k w); [now apply K|].
  unfold bind, io_stat. destruct (stat (w_disk w) dir); [reflexivity|congruence].
Qed.

Lemma quiet_facade m : quiet (facade_check m true dir).
Proof.
  unfold facade_check. apply quiet_bind; [intros w P; split; [apply near_refl|exact P]|]. intros c. unfold check_for_update.
  apply quiet_bind; [apply quiet_ret|]. intros [|]; cbn [negb]; [|apply quiet_ret].
  apply quiet_bind; [apply calm_quiet, calm_fetch|]. intros [[info|]|e]; [| |apply quiet_ret]; (apply quiet_bind; [apply quiet_stamp|intros; apply quiet_ret]).
Qed.
End Files.

(** ** The same handler in two worlds *)
Definition swap (w : world) (g : gui) : gui := set_app (MkApp w (gconf g) (a_vault (g_app g))) g.

Lemma swap_swap w1 w2 g : swap w1 (swap w2 g) = swap w1 g.
Proof. reflexivity. Qed.
Lemma swap_same g : swap (gworld g) g = g.
Proof. destruct g as [[]]. reflexivity. Qed.

Section Agree.
Variable X : loc.
Hypothesis Hname : hd_error X = Some last_check_file.
Variable V : bytes.
Hypothesis HV : V <> [].
Hypothesis Hmeta : has_meta V = false.

Definition agree {A} (m : gact A) : Prop := forall g w,
  g_vault g = V -> near X (w_disk (gworld g)) (w_disk w) ->
  m (swap w g) = (swap w (fst (m g)), snd (m g)) /\ gworld (fst (m g)) = gworld g /\ g_vault (fst (m g)) = V.

Lemma agree_ret {A} (x : A) : agree (ret x).
Proof. now intros g w Hv N. Qed.
Lemma agree_lift {A} (x : res A) : agree (lift x).
Proof. now intros g w Hv N. Qed.
Lemma agree_get {A} (f : gui -> A) : (forall g w, f (swap w g) = f g) -> agree (get f).
Proof. intros Hf g w Hv N. unfold get. now rewrite Hf. Qed.
Lemma agree_bind {A B} (m : gact A) (k : A -> gact B) : agree m -> (forall x, agree (k x)) -> agree (bind m k).
Proof.
  intros Hm Hk g w Hv N. destruct (Hm g w Hv N) as (E & W & Vk). unfold bind. rewrite E.
  destruct (m g) as [g1 [x| |n]]; cbn [fst snd] in *; try (repeat split; assumption).
  assert (N1 : near X (w_disk (gworld g1)) (w_disk w)) by now rewrite W. destruct (Hk x g1 w Vk N1) as (E2 & W2 & V2).
  repeat split; congruence.
Qed.
Lemma agree_vault {B} (k : bytes -> gact B) : agree (k V) -> agree (bind (get g_vault) k).
Proof.
  intros Hk g w Hv N. unfold bind, get. change (g_vault (swap w g)) with (g_vault g). rewrite Hv. now apply Hk.
Qed.
Lemma agree_check (m k : gact bool) : agree m -> agree k -> agree (check m k).
Proof. intros Hm Hk. apply agree_bind; [exact Hm|]. intros [|]; [exact Hk|apply agree_ret]. Qed.
Lemma agree_on_view n f : agree (on_view n f).
Proof. intros g w Hv N. unfold on_view. change (g_ui (swap w g)) with (g_ui g). now destruct (ui_views (g_ui g) n). Qed.
Lemma agree_try_view n f : agree (try_view n f).
Proof.
  intros g w Hv N. unfold try_view. change (g_ui (swap w g)) with (g_ui g). destruct (ui_views (g_ui g) n) as [v|]; [|now repeat split].
  now destruct (f v).
Qed.
Lemma agree_set_view n x0 y0 x1 y1 : agree (set_view n x0 y0 x1 y1).
Proof.
  intros g w Hv N. unfold set_view. destruct (_ || _)%bool; [now repeat split|]. change (g_ui (swap w g)) with (g_ui g).
  now destruct (ui_views (g_ui g) n).
Qed.
Lemma agree_delete n : agree (delete_view n).
Proof. intros g w Hv N. unfold delete_view. change (g_ui (swap w g)) with (g_ui g). now destruct (ui_views (g_ui g) n). Qed.
Lemma agree_current n : agree (set_current n).
Proof. intros g w Hv N. unfold set_current. change (g_ui (swap w g)) with (g_ui g). now destruct (ui_views (g_ui g) n). Qed.
Lemma agree_put f : (forall g w, f (swap w g) = swap w (f g) /\ gworld (f g) = gworld g /\ g_vault (f g) = g_vault g) -> agree (put f).
Proof. intros Hf g w Hv N. destruct (Hf g w) as (A & B & D). unfold put. rewrite A. repeat split; [exact B|]. cbn [fst]. now rewrite D. Qed.
Lemma agree_on_vault {A} (f : disk -> state -> res (state * A)) : (forall D1 D2 s, near X D1 D2 -> f D1 s = f D2 s) -> agree (on_app (on_vault f)).
Proof.
  intros Hf g w Hv N. unfold on_app, on_vault. cbn [swap set_app g_app a_world a_vault a_conf].
  rewrite <- (Hf _ _ (a_vault (g_app g)) N). change (a_world (g_app g)) with (gworld g).
  now destruct (f (w_disk (gworld g)) (a_vault (g_app g))) as [[s x]| |n].
Qed.

Ltac agree_go :=
  repeat lazymatch goal with
    | |- agree (bind (get g_vault) _) => apply agree_vault
    | |- agree (bind _ _) => apply agree_bind; [|intros ?]
    | |- agree (check _ _) => apply agree_check
    | |- agree (ret _) => apply agree_ret
    | |- agree (lift _) => apply agree_lift
    | |- agree (get _) => apply agree_get; reflexivity
    | |- agree (on_view _ _) => apply agree_on_view
    | |- agree (try_view _ _) => apply agree_try_view
    | |- agree (set_view _ _ _ _ _) => apply agree_set_view
    | |- agree (set_current _) => apply agree_current
    | |- agree (delete_view _) => apply agree_delete
    | |- agree (on_app (on_vault _)) => apply agree_on_vault; try reflexivity
    | |- agree (put _) => apply agree_put; intros ?g ?w; cbv beta; try (change (g_cats (swap w g)) with (g_cats g); destruct (g_cats g)); repeat split; reflexivity
    | |- agree (match ?x with _ => _ end) => destruct x
    | |- agree (let x := _ in _) => cbv zeta
    end; auto with agree.

Lemma agree_help_update : agree help_update.
Proof. unfold help_update. agree_go. Qed.
#[local] Hint Resolve agree_help_update : agree.
Lemma agree_show_help h : agree (show_help h).
Proof. unfold show_help. agree_go. Qed.
#[local] Hint Resolve agree_show_help : agree.

Variable C : crypto.
Variable U : unicode.
Variable tz : Z -> Z.
Variable Or : oracles.
Variable dir : bytes.
Variable center : bytes -> Z -> bytes.

Lemma agree_details_update mask : agree (details_update tz mask).
Proof. unfold details_update. agree_go. Qed.
#[local] Hint Resolve agree_details_update : agree.
Lemma agree_details_layout : agree details_layout.
Proof. unfold details_layout. agree_go. Qed.
#[local] Hint Resolve agree_details_layout : agree.
Lemma agree_pick : agree pick_item.
Proof. unfold pick_item. agree_go. Qed.
#[local] Hint Resolve agree_pick : agree.
Lemma agree_overview : agree (show_overview tz).
Proof. unfold show_overview. agree_go. Qed.
#[local] Hint Resolve agree_overview : agree.
Lemma agree_reveal : agree (reveal tz).
Proof. unfold reveal. agree_go. Qed.
#[local] Hint Resolve agree_reveal : agree.
Lemma agree_cover : agree (cover tz).
Proof. unfold cover. agree_go. Qed.
#[local] Hint Resolve agree_cover : agree.
Lemma agree_items_update : agree (items_update tz).
Proof. unfold items_update. agree_go. Qed.
#[local] Hint Resolve agree_items_update : agree.
Lemma agree_items_layout : agree (items_layout tz).
Proof. unfold items_layout. agree_go. Qed.
#[local] Hint Resolve agree_items_layout : agree.
Lemma agree_row_down : agree (row_down tz).
Proof. unfold row_down. agree_go. Qed.
#[local] Hint Resolve agree_row_down : agree.
Lemma agree_row_up : agree (row_up tz).
Proof. unfold row_up. agree_go. Qed.
#[local] Hint Resolve agree_row_up : agree.
Lemma agree_go_back : agree go_back.
Proof. unfold go_back. agree_go. Qed.
#[local] Hint Resolve agree_go_back : agree.
Lemma agree_prompt_layout : agree prompt_layout.
Proof. unfold prompt_layout. agree_go. Qed.
#[local] Hint Resolve agree_prompt_layout : agree.
Lemma agree_error_layout : agree error_layout.
Proof. unfold error_layout. agree_go. Qed.
#[local] Hint Resolve agree_error_layout : agree.
Lemma agree_menu_update : agree (menu_update center).
Proof. unfold menu_update. agree_go. Qed.
#[local] Hint Resolve agree_menu_update : agree.
Lemma agree_close_error : agree (close_error center).
Proof. unfold close_error. agree_go. Qed.
#[local] Hint Resolve agree_close_error : agree.
Lemma agree_menu_down : agree menu_down.
Proof. unfold menu_down. agree_go. Qed.
#[local] Hint Resolve agree_menu_down : agree.
Lemma agree_menu_up : agree menu_up.
Proof. unfold menu_up. agree_go. Qed.
#[local] Hint Resolve agree_menu_up : agree.
Lemma agree_menu_lock : agree (menu_lock center).
Proof. unfold menu_lock. agree_go. Qed.
#[local] Hint Resolve agree_menu_lock : agree.
Lemma agree_items_lock : agree (items_lock center).
Proof. unfold items_lock. agree_go. Qed.
#[local] Hint Resolve agree_items_lock : agree.
Lemma unlock_near pw D1 D2 s : near X D1 D2 -> unlock C U tz Or D1 V pw s = unlock C U tz Or D2 V pw s.
Proof. intros N. unfold unlock, decode_items. now rewrite (near_load X Hname D1 D2 Or V N HV Hmeta). Qed.
Lemma agree_enter : agree (enter_password C U tz Or center).
Proof. unfold enter_password. agree_go. intros. now apply unlock_near. Qed.
#[local] Hint Resolve agree_enter : agree.
Lemma agree_open : agree (open_entry U tz Or).
Proof. unfold open_entry. agree_go. Qed.
#[local] Hint Resolve agree_open : agree.
Lemma agree_menu_layout : agree (menu_layout center).
Proof. unfold menu_layout. agree_go. Qed.
#[local] Hint Resolve agree_menu_layout : agree.
Lemma agree_help_layout : agree help_layout.
Proof. unfold help_layout. agree_go. Qed.
#[local] Hint Resolve agree_help_layout : agree.
Lemma agree_layout : agree (layout center).
Proof. unfold layout, version_layout. agree_go. Qed.
#[local] Hint Resolve agree_layout : agree.
Lemma agree_key cur k : agree (on_key C U tz Or center cur k).
Proof. destruct cur, k; cbn [on_key]; agree_go. Qed.

(** Events that do not change the world. *)
Definition homely (i : input) : bool := match i with Checked | Disk _ => false | _ => true end.
Lemma agree_step i : homely i = true -> agree (gui_step C U tz Or dir center i).
Proof.
  assert (L : agree (ok <- (handle C U tz Or dir center i ;;? layout center) ;; if ok then ret true else os_exit 1) -> agree (gui_step C U tz Or dir center i)).
  { intros H. destruct i as [[]| | | |]; try exact H. apply agree_ret. }
  intros Hi. apply L. unfold os_exit. destruct i as [k|t|w h| |d]; try discriminate Hi; unfold handle; agree_go; apply agree_key.
Qed.

(** Another program changing files. *)
Lemma disk_step d g w : g_vault g = V ->
  gui_step C U tz Or dir center (Disk d) (swap w g) =
  (swap (set_disk d w) (fst (gui_step C U tz Or dir center (Disk d) g)), snd (gui_step C U tz Or dir center (Disk d) g)) /\
  gworld (fst (gui_step C U tz Or dir center (Disk d) g)) = set_disk d (gworld g) /\
  g_vault (fst (gui_step C U tz Or dir center (Disk d) g)) = V.
Proof.
  intros Hv. set (m := ok <- layout center ;; if ok then ret true else os_exit 1).
  assert (A : agree m) by (unfold m, os_exit; agree_go).
  assert (E : forall g, gui_step C U tz Or dir center (Disk d) g = m (swap (set_disk d (gworld g)) g)) by reflexivity.
  rewrite !E. destruct (A (swap (set_disk d (gworld g)) g) (set_disk d w) Hv) as (A1 & A2 & A3).
  - apply near_refl.
  - rewrite swap_swap. change (gworld (swap w g)) with w. rewrite swap_swap in A1. auto.
Qed.
End Agree.

(** ** What the check answers *)
Definition answer (r : eres (option update_info)) : eres update_info :=
  match r with
  | Err e => Err e
  | Val None => Err ErrNoUpdate
  | Val (Some info) => if ui_newer info then Val info else Err ErrNoUpdate
  end.

Lemma fetch_net w1 w2 : w_net w1 = w_net w2 -> snd (fetch_info w1) = snd (fetch_info w2).
Proof.
  intros E. unfold fetch_info, bind, http_get. destruct github_releases as [|c u]; [reflexivity|]. rewrite E.
  destruct (w_net w2) as [|r rest]; [reflexivity|]. now destruct r as [|body [|]].
Qed.

Lemma stamp_ok dir w : snd (check_timestamp dir w) = Ok tt.
Proof. destruct (timestamp_events dir w) as (w1 & t & E & _). now rewrite E. Qed.

Lemma facade_answer dir m c w r : get_config m = Ok c -> snd (fetch_info w) = Ok r -> snd (facade_check m true dir w) = Ok (answer r).
Proof.
  intros Hc Hf. unfold facade_check, bind at 1, lift. rewrite Hc. unfold check_for_update, bind at 1, ret at 1. cbn [negb].
  unfold bind at 1. destruct (fetch_info w) as [w1 x]. cbn [snd] in Hf. subst x.
  assert (S : forall x : eres update_info, snd ((check_timestamp dir ;;; ret x) w1) = Ok x).
  { intros x. unfold bind. assert (H := stamp_ok dir w1). destruct (check_timestamp dir w1) as [w2 y]. cbn [snd] in H. subst y. reflexivity. }
  destruct r as [[info|]|e]; cbn [answer]; try apply S. reflexivity.
Qed.
Lemma facade_stuck dir m w : (forall c r, get_config m = Ok c -> snd (fetch_info w) = Ok r -> False) ->
  exists x, facade_check m true dir w = (x, match get_config m with Ok _ => match snd (fetch_info w) with Ok _ => Panic | Panic => Panic | Exit n => Exit n end | Panic => Panic | Exit n => Exit n end).
Proof.
  intros H. unfold facade_check, bind at 1, lift. destruct (get_config m) as [c| |n]; eauto.
  unfold check_for_update, bind at 1, ret at 1. cbn [negb]. unfold bind at 1.
  destruct (fetch_info w) as [w1 [r| |n]]; cbn [snd] in *; eauto. exfalso. eapply H; reflexivity.
Qed.

Section Run.
Variable C : crypto.
Variable U : unicode.
Variable tz : Z -> Z.
Variable dir : bytes.
Variable center : bytes -> Z -> bytes.
Hypothesis Hroot : rooted dir = true.
Let X : loc := last_check_file :: place [] dir.
Variable V : bytes.
Hypothesis HV : V <> [].
Hypothesis Hmeta : has_meta V = false.

Lemma HnameX : hd_error X = Some last_check_file.
Proof. reflexivity. Qed.

Definition like (g1 g2 : gui) : Prop := g1 = swap (gworld g1) g2 /\ near X (w_disk (gworld g1)) (w_disk (gworld g2)).

Definition pending (r : eres update_info) (g : gui) : Prop :=
  g_checking g = true /\ exists c r0, get_config (gconf g) = Ok c /\ snd (fetch_info (gworld g)) = Ok r0 /\ r = answer r0.

(** [g1] is the GUI with the goroutine at [k], [g2] the GUI without. *)
Definition inv (k : task) (g1 g2 : gui) : Prop :=
  like g1 g2 /\ g_vault g2 = V /\ there g2 /\ present dir (w_disk (gworld g1)) /\ present dir (w_disk (gworld g2)) /\
  match k with
  | Ask => g_checking g2 = true /\ w_net (gworld g1) = w_net (gworld g2)
  | Clock r | Look r _ | Open r _ | Show r => pending r g2
  | Fill r _ l => l = X /\ pending r g2
  | Make _ _ => False
  | Over => True
  end.

(** An event of the user or of another program. *)
Definition fair (i : input) : Prop := i <> Checked /\ forall d, i = Disk d -> present dir d.

Lemma event_step k g1 g2 Or i : inv k g1 g2 -> fair i ->
  snd (gui_step C U tz Or dir center i g1) = snd (gui_step C U tz Or dir center i g2) /\
  like (fst (gui_step C U tz Or dir center i g1)) (fst (gui_step C U tz Or dir center i g2)) /\
  (forall x, snd (gui_step C U tz Or dir center i g2) = Ok x ->
    inv k (fst (gui_step C U tz Or dir center i g1)) (fst (gui_step C U tz Or dir center i g2))).
Proof.
  intros ((E & N) & Hv & Ht & P1 & P2 & K) (Hi & Hd). apply near_sym in N. set (w1 := gworld g1) in *.
  assert (Q : exists w1', gui_step C U tz Or dir center i g1 = (swap w1' (fst (gui_step C U tz Or dir center i g2)), snd (gui_step C U tz Or dir center i g2)) /\
     near X (w_disk (gworld (fst (gui_step C U tz Or dir center i g2)))) (w_disk w1') /\ w_net w1' = w_net w1 /\ w_net (next_world dir i g2) = w_net (gworld g2) /\
     g_vault (fst (gui_step C U tz Or dir center i g2)) = V /\ present dir (w_disk w1') /\ present dir (w_disk (gworld (fst (gui_step C U tz Or dir center i g2))))).
  { destruct (homely i) eqn:Eh.
    { destruct (agree_step X HnameX V HV Hmeta C U tz Or dir center i Eh g2 w1 Hv N) as (A1 & A2 & A3). rewrite <- E in A1.
      assert (En : next_world dir i g2 = gworld g2) by (destruct i; try reflexivity; discriminate Eh). rewrite En.
      exists w1. rewrite A2. split; [exact A1|]. split; [exact N|]. repeat split; assumption. }
    destruct i as [k0|t|w h| |d]; try discriminate Eh; [congruence|].
    destruct (disk_step X V C U tz Or dir center d g2 w1 Hv) as (A1 & A2 & A3). rewrite <- E in A1.
    exists (set_disk d w1). rewrite A2. split; [exact A1|]. split; [apply near_refl|]. repeat split; try assumption; apply Hd; reflexivity. }
  destruct Q as (w1' & Q1 & Q2 & Q3 & Q4 & Q5 & Q6 & Q7). destruct (step_world C U tz Or dir center i g2 Ht) as (S1 & S2 & S3 & S4).
  rewrite Q1. cbn [fst snd]. assert (L : like (swap w1' (fst (gui_step C U tz Or dir center i g2))) (fst (gui_step C U tz Or dir center i g2))) by (split; [reflexivity|now apply near_sym]).
  split; [reflexivity|]. split; [exact L|]. intros x Hx. split; [exact L|]. split; [exact Q5|]. split; [exact S3|]. split; [exact Q6|]. split; [exact Q7|].
  specialize (S4 x Hx). assert (Hc : next_checking i g2 = g_checking g2) by (destruct i; try reflexivity; now destruct Hi). rewrite Hc in S4.
  assert (Pk : forall r, pending r g2 -> pending r (fst (gui_step C U tz Or dir center i g2))).
  { intros r (B1 & c & r0 & B2 & B3 & B4). split; [congruence|]. exists c, r0. split; [congruence|]. split; [|exact B4].
    rewrite <- B3. apply fetch_net. now rewrite S1. }
  destruct k; try (now apply Pk); try exact K.
  - destruct K as [K1 K2]. split; [congruence|]. change (gworld (swap w1' (fst (gui_step C U tz Or dir center i g2)))) with w1'. rewrite S1. congruence.
  - destruct K as [K1 K2]. split; [exact K1|now apply Pk].
Qed.

(** Both runs fail in the same way. *)
Definition fails {A B} (r : res A) (r' : res B) : Prop := (r = Panic /\ r' = Panic) \/ exists n, r = Exit n /\ r' = Exit n.

Definition ends_with (k : task) (g1 g2 : gui) : Prop := k <> Over /\ forall Oc,
  like (fst (tick dir center k g1)) (fst (gui_step C U tz Oc dir center Checked g2)) /\
  (snd (tick dir center k g1) = Ok Over /\ snd (gui_step C U tz Oc dir center Checked g2) = Ok true /\
     inv Over (fst (tick dir center k g1)) (fst (gui_step C U tz Oc dir center Checked g2)) \/
   fails (snd (tick dir center k g1)) (snd (gui_step C U tz Oc dir center Checked g2))).
Definition goes_on (k : task) (g1 g2 : gui) : Prop := exists k',
  snd (tick dir center k g1) = Ok k' /\ inv k' (fst (tick dir center k g1)) g2 /\ (k' = Over <-> k = Over).

Lemma world_step {A} (m : io A) g w r : m (gworld g) = (w, r) -> on_app (on_world m) g = (swap w g, r).
Proof. intros E. unfold on_app, on_world. change (a_world (g_app g)) with (gworld g). now rewrite E. Qed.

Lemma like_swap w1 g1 g2 : like g1 g2 -> near X (w_disk (gworld g1)) (w_disk w1) -> like (swap w1 g1) g2.
Proof.
  intros [E N] N1. split; [rewrite E; reflexivity|]. exact (near_trans _ _ _ _ (near_sym _ _ _ N1) N).
Qed.

Lemma shown_end r g1 g2 : inv (Show r) g1 g2 -> ends_with (Show r) g1 g2.
Proof.
  intros ((E & N) & Hv & Ht & P1 & P2 & Hc & c & r0 & Hg & Hf & ->). split; [discriminate|]. intros Oc.
  set (w1 := gworld g1) in *.
  assert (F := facade_answer dir _ c (gworld g2) r0 Hg Hf). destruct (quiet_facade X dir Hroot eq_refl (gconf g2) (gworld g2) P2) as [NF PF].
  set (w2 := fst (facade_check (gconf g2) true dir (gworld g2))) in *.
  set (f := fun g => set_checking false (set_ui (put_view VVersion (option_map (write (check_text (answer r0))) (ui_views (g_ui g) VVersion)) (g_ui g)) g)).
  set (m := ok <- layout center ;; if ok then ret true else os_exit 1).
  assert (A : agree X V m) by (unfold m; apply agree_bind; [now apply agree_layout|intros [|]; [apply agree_ret|apply agree_lift]]).
  assert (Ev : exists v, ui_views (g_ui g2) VVersion = Some v) by (unfold there, view_of in Ht; destruct (ui_views (g_ui g2) VVersion); [eauto|congruence]).
  destruct Ev as [v Ev].
  assert (T : tick dir center (Show (answer r0)) g1 = (ok <- layout center ;; if ok then ret Over else os_exit 1) (swap w1 (f g2))).
  { rewrite E. unfold tick, f, on_view, put, bind at 1 2. cbn [swap set_app g_ui]. rewrite Ev. reflexivity. }
  assert (S : gui_step C U tz Oc dir center Checked g2 = m (swap w2 (f g2))).
  { unfold gui_step, handle, check, m. unfold bind at 1 2 3, get at 1. rewrite Hc. unfold version_update, bind at 1 2, on_app.
    unfold bind at 1, the_conf, on_world. change (a_conf (g_app g2)) with (gconf g2). change (a_world (g_app g2)) with (gworld g2).
    destruct (facade_check (gconf g2) true dir (gworld g2)) as [w2' x]. cbn [snd] in F. subst x. cbn [fst] in w2.
    unfold bind at 1, on_view. cbn [set_app g_ui]. rewrite Ev. unfold put, ret at 1. unfold f. rewrite Ev. cbn [option_map].
    unfold bind. destruct (answer r0) as [|[]]; reflexivity. }
  destruct (A (swap w2 (f g2)) w1 Hv) as (A1 & A2 & A3).
  { change (gworld (swap w2 (f g2))) with w2. exact (near_trans _ _ _ _ (near_sym _ _ _ NF) (near_sym _ _ _ N)). }
  rewrite swap_swap in A1. rewrite S. change (gworld (swap w2 (f g2))) with w2 in A2.
  assert (TT : tick dir center (Show (answer r0)) g1 = (fst (m (swap w1 (f g2))), match snd (m (swap w1 (f g2))) with Ok _ => Ok Over | Panic => Panic | Exit n => Exit n end)).
  { rewrite T. unfold m, bind. destruct (layout center (swap w1 (f g2))) as [g' [[|]| |n]]; reflexivity. }
  rewrite TT, A1. cbn [fst snd].
  assert (L : like (swap w1 (fst (m (swap w2 (f g2))))) (fst (m (swap w2 (f g2))))).
  { split; [reflexivity|]. rewrite A2. change (gworld (swap w1 _)) with w1. exact (near_trans _ _ _ _ N NF). }
  split; [exact L|].
  assert (Tf : there (swap w2 (f g2))) by (unfold there, view_of, f; cbn; now rewrite Ev).
  assert (Tl : there (fst (m (swap w2 (f g2))))).
  { destruct (still_layout center _ Tf) as (_ & _ & _ & H). unfold m, bind. now destruct (layout center (swap w2 (f g2))) as [g' [[|]| |n]]. }
  assert (B : forall x, snd (m (swap w2 (f g2))) = Ok x -> x = true).
  { intros x. unfold m, bind. destruct (layout center (swap w2 (f g2))) as [g' [[|]| |n]]; cbn; congruence. }
  destruct (snd (m (swap w2 (f g2)))) as [x| |n].
  - left. rewrite (B x eq_refl). split; [reflexivity|]. split; [reflexivity|]. split; [exact L|]. split; [exact A3|]. split; [exact Tl|].
    split; [exact P1|]. rewrite A2. split; [exact PF|exact I].
  - right. left. auto.
  - right. right. eauto.
Qed.

Lemma on_conf g : on_app the_conf g = (g, Ok (gconf g)).
Proof. destruct g as [[]]. reflexivity. Qed.

Lemma next_task k k' (w : world) g1 g2 : inv k g1 g2 ->
  near X (w_disk (gworld g1)) (w_disk w) -> present dir (w_disk w) ->
  match k' with
  | Clock r | Look r _ | Open r _ | Show r => pending r g2
  | Fill r _ l => l = X /\ pending r g2
  | _ => False
  end -> inv k' (swap w g1) g2.
Proof.
  intros (L & Hv & Ht & P1 & P2 & _) N P K. split; [now apply like_swap|]. do 4 (split; [assumption|]). destruct k'; (exact K || contradiction).
Qed.

Lemma ask_step g1 g2 : inv Ask g1 g2 -> goes_on Ask g1 g2 \/ ends_with Ask g1 g2.
Proof.
  intros Hinv. assert (Hinv' := Hinv). destruct Hinv' as ((E & N) & Hv & Ht & P1 & P2 & Hc & Hn).
  assert (Ec : gconf g1 = gconf g2) by (rewrite E; reflexivity).
  assert (En := fetch_net _ _ Hn). destruct (calm_quiet X dir Hroot eq_refl _ (calm_fetch X) (gworld g1) P1) as [NF PF].
  destruct (fetch_info (gworld g1)) as [w1 x] eqn:Ef. cbn [fst snd] in *.
  assert (T : tick dir center Ask g1 = match get_config (gconf g1) with
     | Ok _ => (swap w1 g1, match x with Ok r => Ok (match r with Err e => Show (Err e) | Val None => Clock (Err ErrNoUpdate) | Val (Some info) => Clock (if ui_newer info then Val info else Err ErrNoUpdate) end) | Panic => Panic | Exit n => Exit n end)
     | Panic => (g1, Panic) | Exit n => (g1, Exit n) end).
  { unfold tick. unfold bind at 1. rewrite on_conf. unfold bind at 1, lift. destruct (get_config (gconf g1)); try reflexivity.
    unfold bind. rewrite (world_step _ _ _ _ Ef). now destruct x. }
  destruct (get_config (gconf g2)) as [c| |n] eqn:Eg; [destruct x as [r| |n]|..].
  - left. rewrite Ec, Eg in T. unfold goes_on. rewrite T. cbn [fst snd].
    assert (Pd : pending (answer r) g2) by (split; [exact Hc|eauto]).
    destruct r as [[info|]|e]; eexists; (split; [reflexivity|]); (split; [apply (next_task Ask); assumption|split; discriminate]).
  - right. split; [discriminate|]. intros Oc. rewrite T, Ec, Eg. cbn [fst snd].
    destruct (facade_stuck dir (gconf g2) (gworld g2)) as [w2 Fw]; [congruence|]. rewrite Eg, <- En in Fw.
    destruct (quiet_facade X dir Hroot eq_refl (gconf g2) (gworld g2) P2) as [N2 P2']. rewrite Fw in N2, P2'. cbn [fst] in N2, P2'.
    assert (S : gui_step C U tz Oc dir center Checked g2 = (swap w2 g2, Panic)).
    { unfold gui_step, handle, check. unfold bind at 1 2 3, get at 1. rewrite Hc. unfold version_update, bind at 1 2, on_app.
      unfold bind at 1, the_conf, on_world. change (a_conf (g_app g2)) with (gconf g2). change (a_world (g_app g2)) with (gworld g2). rewrite Fw. reflexivity. }
    rewrite S. cbn [fst snd]. split; [|right; left; auto]. split; [rewrite E; reflexivity|].
    exact (near_trans _ _ _ _ (near_sym _ _ _ NF) (near_trans _ _ _ _ N N2)).
  - right. split; [discriminate|]. intros Oc. rewrite T, Ec, Eg. cbn [fst snd].
    destruct (facade_stuck dir (gconf g2) (gworld g2)) as [w2 Fw]; [congruence|]. rewrite Eg, <- En in Fw.
    destruct (quiet_facade X dir Hroot eq_refl (gconf g2) (gworld g2) P2) as [N2 P2']. rewrite Fw in N2, P2'. cbn [fst] in N2, P2'.
    assert (S : gui_step C U tz Oc dir center Checked g2 = (swap w2 g2, Exit n)).
    { unfold gui_step, handle, check. unfold bind at 1 2 3, get at 1. rewrite Hc. unfold version_update, bind at 1 2, on_app.
      unfold bind at 1, the_conf, on_world. change (a_conf (g_app g2)) with (gconf g2). change (a_world (g_app g2)) with (gworld g2). rewrite Fw. reflexivity. }
    rewrite S. cbn [fst snd]. split; [|right; right; eauto]. split; [rewrite E; reflexivity|].
    exact (near_trans _ _ _ _ (near_sym _ _ _ NF) (near_trans _ _ _ _ N N2)).
  - right. split; [discriminate|]. intros Oc. rewrite T, Ec, Eg. cbn [fst snd].
    assert (S : gui_step C U tz Oc dir center Checked g2 = (swap (gworld g2) g2, Panic)).
    { unfold gui_step, handle, check. unfold bind at 1 2 3, get at 1. rewrite Hc. unfold version_update, bind at 1 2, on_app.
      unfold bind at 1, the_conf, on_world. change (a_conf (g_app g2)) with (gconf g2). change (a_world (g_app g2)) with (gworld g2).
      unfold facade_check, bind at 1, lift. rewrite Eg. reflexivity. }
    rewrite S. cbn [fst snd]. split; [|right; left; auto]. split; [exact E|exact N].
  - right. split; [discriminate|]. intros Oc. rewrite T, Ec, Eg. cbn [fst snd].
    assert (S : gui_step C U tz Oc dir center Checked g2 = (swap (gworld g2) g2, Exit n)).
    { unfold gui_step, handle, check. unfold bind at 1 2 3, get at 1. rewrite Hc. unfold version_update, bind at 1 2, on_app.
      unfold bind at 1, the_conf, on_world. change (a_conf (g_app g2)) with (gconf g2). change (a_world (g_app g2)) with (gworld g2).
      unfold facade_check, bind at 1, lift. rewrite Eg. reflexivity. }
    rewrite S. cbn [fst snd]. split; [|right; right; eauto]. split; [exact E|exact N].
Qed.

(** A step that works on the world only. *)
Lemma io_step {A} (m : io A) k (f : A -> task) g1 g2 w x : inv k g1 g2 -> tick dir center k = bind (on_app (on_world m)) (fun x => ret (f x)) ->
  quiet X dir m -> m (gworld g1) = (w, Ok x) -> k <> Over -> f x <> Over ->
  match f x with
  | Clock r | Look r _ | Open r _ | Show r => pending r g2
  | Fill r _ l => l = X /\ pending r g2
  | _ => False
  end -> goes_on k g1 g2.
Proof.
  intros Hinv Ht Q E Hk Hf K. exists (f x). rewrite Ht. unfold bind. rewrite (world_step _ _ _ _ E). cbn [fst snd ret].
  split; [reflexivity|]. split; [|split; congruence].
  assert (P1 : present dir (w_disk (gworld g1))) by apply Hinv. destruct (Q _ P1) as [N P]. rewrite E in N, P. now apply (next_task k).
Qed.

Lemma tick_step k g1 g2 : inv k g1 g2 -> goes_on k g1 g2 \/ ends_with k g1 g2.
Proof.
  intros Hinv. assert (H := Hinv). destruct H as (L & Hv & Ht & P1 & P2 & K). destruct k as [|r|r t|r t|r t|r t l|r|].
  - now apply ask_step.
  - left. destruct (now (gworld g1)) as [w x] eqn:E. assert (Ex : exists t, x = Ok t) by (unfold now in E; destruct (w_clock (gworld g1)); injection E as _ <-; eauto).
    destruct Ex as [t ->]. apply (io_step now _ (Look r) _ _ w t Hinv eq_refl (calm_quiet X dir Hroot eq_refl _ (calm_now X)) E); (discriminate || exact K).
  - left. assert (Es : exists n, stat (w_disk (gworld g1)) dir = Some n) by (unfold present in P1; destruct (stat (w_disk (gworld g1)) dir); [eauto|congruence]).
    destruct Es as [n Es].
    apply (io_step (io_stat dir) _ (fun d => match d with None => Make r t | Some _ => Open r t end) _ _ (gworld g1) (Some n) Hinv eq_refl); try discriminate; try exact K.
    + intros w P. split; [apply near_refl|exact P].
    + unfold io_stat. now rewrite Es.
  - contradiction.
  - left. destruct (open_trunc (join_path [dir; last_check_file]) 420 (gworld g1)) as [w x] eqn:E.
    assert (Ex : exists o, x = Ok o).
    { unfold open_trunc in E. destruct (resolve_new _ _) as [l|]; [|injection E as _ <-; eauto].
      destruct (fs_get (w_fs (gworld g1)) l) as [[c m|]|]; unfold bind, change, ret in E; destruct (w_faults (gworld g1)) as [|[n|] fl]; injection E as _ <-; eauto. }
    destruct Ex as [o ->].
    apply (io_step (open_trunc (join_path [dir; last_check_file]) 420) _ (fun o => match o with Some l => Fill r t l | None => Show r end) _ _ w o Hinv eq_refl); try discriminate.
    + exact (calm_quiet X dir Hroot eq_refl _ (calm_open X dir Hroot eq_refl 420)).
    + exact E.
    + now destruct o.
    + destruct o as [l|]; [|exact K]. split; [|exact K]. exact (open_answer X dir Hroot eq_refl _ _ _ _ E).
  - left. destruct K as [-> K]. destruct (write_bytes X (itoa (t / 1000000000)%Z) (gworld g1)) as [w x] eqn:E.
    assert (Ex : exists o, x = Ok o) by (unfold write_bytes in E; destruct (w_faults (gworld g1)) as [|[n|] fl]; injection E as _ <-; eauto).
    destruct Ex as [o ->].
    apply (io_step (write_bytes X (itoa (t / 1000000000)%Z)) _ (fun _ => Show r) _ _ w o Hinv eq_refl); try discriminate; try exact K.
    + exact (calm_quiet X dir Hroot eq_refl _ (calm_write X dir eq_refl _)).
    + exact E.
  - right. now apply shown_end.
  - left. exists Over. split; [reflexivity|]. split; [exact Hinv|reflexivity].
Qed.

(** ** Whole runs *)
Definition outcome (r : res (bool * task)) : res bool :=
  match r with Ok (more, _) => Ok more | Panic => Panic | Exit n => Exit n end.
Definition inputs (ts : list turn) : list (oracles * input) :=
  flat_map (fun t => match t with Tick => [] | Event Or i => [(Or, i)] end) ts.
Definition fair_turn (t : turn) : Prop := match t with Tick => True | Event _ i => fair i end.

Lemma weave_over ts : Forall fair_turn ts -> forall g1 g2, inv Over g1 g2 ->
  exists g2', play C U tz dir center (inputs ts) g2 = (g2', outcome (snd (weave C U tz dir center ts Over g1))) /\
  like (fst (weave C U tz dir center ts Over g1)) g2' /\ forall more k, snd (weave C U tz dir center ts Over g1) = Ok (more, k) -> k = Over.
Proof.
  induction 1 as [|t ts Hf Hts IH]; intros g1 g2 Hinv.
  - exists g2. split; [reflexivity|]. split; [apply Hinv|]. intros more k. cbn. congruence.
  - destruct t as [|Or i].
    + exact (IH g1 g2 Hinv).
    + cbn [inputs flat_map Datatypes.app play weave]. destruct (event_step _ _ _ Or i Hinv Hf) as (E1 & E2 & E3). unfold bind.
      destruct (gui_step C U tz Or dir center i g1) as [h1 x1], (gui_step C U tz Or dir center i g2) as [h2 x2]. cbn [fst snd] in *. subst x1.
      destruct x2 as [[|]| |n].
      * exact (IH h1 h2 (E3 true eq_refl)).
      * exists h2. split; [reflexivity|]. split; [exact E2|]. cbn. congruence.
      * exists h2. split; [reflexivity|]. split; [exact E2|]. cbn. congruence.
      * exists h2. split; [reflexivity|]. split; [exact E2|]. cbn. congruence.
Qed.

Definition moment Oc (ts : list turn) (k : task) (g1 g2 g2' : gui) : Prop := exists ts1 ts2 k1 h1,
  ts = ts1 ++ Tick :: ts2 /\ weave C U tz dir center ts1 k g1 = (h1, Ok (true, k1)) /\ k1 <> Over /\
  (forall more k', snd (weave C U tz dir center (ts1 ++ [Tick]) k g1) = Ok (more, k') -> k' = Over) /\
  play C U tz dir center (inputs ts1 ++ (Oc, Checked) :: inputs ts2) g2 = (g2', outcome (snd (weave C U tz dir center ts k g1))).

Lemma weave_run Oc ts : Forall fair_turn ts -> forall k g1 g2, k <> Over -> inv k g1 g2 ->
  exists g2', like (fst (weave C U tz dir center ts k g1)) g2' /\
  ((play C U tz dir center (inputs ts) g2 = (g2', outcome (snd (weave C U tz dir center ts k g1))) /\
    forall more k', snd (weave C U tz dir center ts k g1) = Ok (more, k') -> k' <> Over) \/
   (moment Oc ts k g1 g2 g2' /\ forall more k', snd (weave C U tz dir center ts k g1) = Ok (more, k') -> k' = Over)).
Proof.
  induction 1 as [|t ts Hf Hts IH]; intros k g1 g2 Hk Hinv.
  - exists g2. split; [apply Hinv|]. left. split; [reflexivity|]. intros more k'. cbn. congruence.
  - destruct t as [|Or i].
    + cbn [weave]. destruct (tick_step k g1 g2 Hinv) as [(k' & T1 & T2 & T3)|(_ & T)].
      * destruct (tick dir center k g1) as [h1 x] eqn:Et. cbn [fst snd] in *. subst x.
        assert (Hk' : k' <> Over) by (intros Q; apply Hk; now apply T3).
        destruct (IH k' h1 g2 Hk' T2) as (g2' & L & R). exists g2'.
        assert (W : forall us, (k0 <- tick dir center k;; weave C U tz dir center us k0) g1 = weave C U tz dir center us k' h1).
        { intros us. unfold bind. rewrite Et. reflexivity. }
        rewrite W. split; [exact L|]. destruct R as [R|[(ts1 & ts2 & k1 & h & -> & R1 & R2 & R3 & R4) R]]; [left; exact R|right]. split; [|exact R].
        exists (Tick :: ts1), ts2, k1, h. split; [reflexivity|]. cbn [weave Datatypes.app]. rewrite !W. auto.
      * destruct (T Oc) as [L [(T1 & T2 & T3)|T1]].
        -- destruct (tick dir center k g1) as [h1 x] eqn:Et. cbn [fst snd] in *. subst x.
           destruct (weave_over ts Hts h1 _ T3) as (g2' & R1 & R2 & R3). exists g2'. unfold bind. rewrite Et. split; [exact R2|]. right.
           split; [|exact R3]. exists [], ts, k, g1. split; [reflexivity|]. split; [reflexivity|]. split; [exact Hk|]. split.
           ++ cbn [Datatypes.app weave]. unfold bind. rewrite Et. cbn. congruence.
           ++ cbn [inputs flat_map Datatypes.app play weave]. unfold bind. rewrite Et.
              destruct (gui_step C U tz Oc dir center Checked g2) as [h2 y]. cbn [fst snd] in *. subst y. exact R1.
        -- exists (fst (gui_step C U tz Oc dir center Checked g2)). unfold bind.
           destruct (tick dir center k g1) as [h1 x] eqn:Et. cbn [fst snd] in *.
           assert (F : exists e : forall A, res A, x = e task /\ snd (gui_step C U tz Oc dir center Checked g2) = e bool /\ outcome (e _) = e _ /\
              (forall (A B : Type) (h : gui) (f : A -> gui * res B), match e A with Ok a => f a | Panic => (h, Panic) | Exit n => (h, Exit n) end = (h, e B)) /\ forall A (a : A), e A <> Ok a).
           { destruct T1 as [[-> T1]|(n & -> & T1)].
             - exists (fun _ => Panic). repeat split; [exact T1|discriminate].
             - exists (fun _ => Exit n). repeat split; [exact T1|discriminate]. }
           destruct F as (e & -> & F2 & F3 & F4 & F5). rewrite F4. cbn [fst snd]. split; [exact L|]. right. split; [|intros more k' Q; now apply F5 in Q].
           exists [], ts, k, g1. split; [reflexivity|]. split; [reflexivity|]. split; [exact Hk|]. split.
           ++ cbn [Datatypes.app weave]. unfold bind. rewrite Et, F4. cbn [snd]. intros more k' Q. now apply F5 in Q.
           ++ cbn [inputs flat_map Datatypes.app play weave]. unfold bind. rewrite Et, F4. cbn [snd]. rewrite F3.
              destruct (gui_step C U tz Oc dir center Checked g2) as [h2 y]. cbn [fst snd] in *. subst y. apply F4.
    + cbn [inputs flat_map Datatypes.app play weave]. destruct (event_step _ _ _ Or i Hinv Hf) as (E1 & E2 & E3). unfold bind at 1 2 3 4 5.
      assert (W : forall us, weave C U tz dir center (Event Or i :: us) k g1 = (more <- gui_step C U tz Or dir center i;; if more then weave C U tz dir center us k else ret (false, k)) g1) by reflexivity.
      assert (Pl : forall es, play C U tz dir center ((Or, i) :: es) g2 = (more <- gui_step C U tz Or dir center i;; if more then play C U tz dir center es else ret false) g2) by reflexivity.
      unfold bind in W, Pl.
      destruct (gui_step C U tz Or dir center i g1) as [h1 x1], (gui_step C U tz Or dir center i g2) as [h2 x2]. cbn [fst snd] in *. subst x1.
      destruct x2 as [[|]| |n].
      * destruct (IH k h1 h2 Hk (E3 true eq_refl)) as (g2' & L & R). exists g2'. split; [exact L|].
        destruct R as [R|[(ts1 & ts2 & k1 & h & -> & R1 & R2 & R3 & R4) R]]; [left; exact R|right]. split; [|exact R].
        exists (Event Or i :: ts1), ts2, k1, h. split; [reflexivity|].
        change (inputs (Event Or i :: ts1) ++ (Oc, Checked) :: inputs ts2) with ((Or, i) :: (inputs ts1 ++ (Oc, Checked) :: inputs ts2)).
        change ((Event Or i :: ts1) ++ [Tick]) with (Event Or i :: (ts1 ++ [Tick])). rewrite !W, Pl. auto.
      * exists h2. split; [exact E2|]. left. split; [reflexivity|]. cbn. congruence.
      * exists h2. split; [exact E2|]. left. split; [reflexivity|]. cbn. congruence.
      * exists h2. split; [exact E2|]. left. split; [reflexivity|]. cbn. congruence.
Qed.
End Run.
