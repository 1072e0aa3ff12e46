(** Lemmas for updates that are repeated: the tree of files stays one, and what a run without faults does. *)
From Verif Require Import Base GoStrings Crypto Path Fs FsProof Domain World WorldProof Updater UpdateProof.

(** ** The tree of files *)

Lemma tree_file f l c m : wf_fs f -> is_dir f l = false -> is_dir f (tl l) = true -> wf_fs (fs_set l (NFile c m) f).
Proof.
  intros H Hl Hp e k Hk. assert (Hne := is_dir_cons_nonroot _ _ Hl).
  assert (G : forall k, is_dir f k = true -> is_dir (fs_set l (NFile c m) f) k = true).
  { intros k' Hd. unfold is_dir in *. rewrite fs_get_set_other; [exact Hd|]. intros ->. congruence. }
  apply G. destruct (loc_eqb (e :: k) l) eqn:E.
  - apply loc_eqb_eq in E. subst l. exact Hp.
  - apply loc_eqb_neq in E. rewrite fs_get_set_other in Hk by exact E. now apply (H e).
Qed.

Lemma tree_rewrite f l c m c' m' : wf_fs f -> fs_get f l = Some (NFile c m) -> wf_fs (fs_set l (NFile c' m') f).
Proof.
  intros H Hl. destruct l as [|e l]; [discriminate|]. apply tree_file; [exact H|unfold is_dir; now rewrite Hl|].
  cbn [tl]. apply (H e). congruence.
Qed.

Lemma tree_dir f l : wf_fs f -> fs_get f l = None -> is_dir f (tl l) = true -> wf_fs (fs_set l NDir f).
Proof.
  intros H Hl Hp e k Hk. assert (Hne : l <> []) by (intros ->; discriminate).
  assert (G : forall k, is_dir f k = true -> is_dir (fs_set l NDir f) k = true).
  { intros k' Hd. unfold is_dir in *. destruct (loc_eqb k' l) eqn:E.
    - apply loc_eqb_eq in E. subst k'. now rewrite fs_get_set_same.
    - apply loc_eqb_neq in E. now rewrite fs_get_set_other. }
  apply G. destruct (loc_eqb (e :: k) l) eqn:E.
  - apply loc_eqb_eq in E. subst l. exact Hp.
  - apply loc_eqb_neq in E. rewrite fs_get_set_other in Hk by exact E. now apply (H e).
Qed.

Lemma tree_del f l : wf_fs f -> (forall e, fs_get f (e :: l) = None) -> wf_fs (fs_del l f).
Proof.
  intros H Hl e k Hk. destruct (loc_eqb (e :: k) l) eqn:E.
  - apply loc_eqb_eq in E. subst l. rewrite fs_get_del_same in Hk by discriminate. congruence.
  - apply loc_eqb_neq in E. rewrite fs_get_del_other in Hk by exact E.
    assert (Hd := H e k Hk). unfold is_dir in *. destruct (loc_eqb k l) eqn:E2.
    + apply loc_eqb_eq in E2. subst k. now rewrite Hl in Hk.
    + apply loc_eqb_neq in E2. now rewrite fs_get_del_other.
Qed.

(** A place where a file may be created lies in a directory. *)
Lemma resolve_new_parent D p l : wf_fs (d_fs D) -> resolve_new D p = Some l -> fs_get (d_fs D) l <> Some NDir ->
  is_dir (d_fs D) (tl l) = true.
Proof.
  intros Hwf H Hl. unfold resolve_new in H. destruct (resolve D p) as [l'|] eqn:Er.
  - injection H as ->. destruct l as [|e l]; [reflexivity|]. cbn [tl]. apply (Hwf e).
    unfold resolve in Er. destruct p as [|c p]; [discriminate|].
    assert (G : forall es cur, walk (d_fs D) cur es = Some (e :: l) -> fs_get (d_fs D) (e :: l) <> None \/ es = []).
    { induction es as [|x es IH]; intros cur Hw; [now right|]. left. cbn [walk] in Hw.
      destruct (negb (is_dir (d_fs D) cur)) eqn:Ed; [discriminate|].
      assert (Y : forall cur', fs_get (d_fs D) cur' <> None -> walk (d_fs D) cur' es = Some (e :: l) -> fs_get (d_fs D) (e :: l) <> None).
      { intros cur' Hc Hw'. destruct (IH _ Hw') as [X| ->]; [exact X|]. cbn [walk] in Hw'. injection Hw' as <-. exact Hc. }
      destruct (bytes_eqb x [] || bytes_eqb x dot).
      - apply (Y cur); [|exact Hw]. unfold is_dir in Ed. destruct (fs_get (d_fs D) cur); [discriminate|discriminate Ed].
      - destruct (bytes_eqb x dotdot).
        + apply (Y (tl cur)); [|exact Hw]. destruct cur as [|a cur]; [discriminate|]. cbn [tl].
          intros X. assert (Z : is_dir (d_fs D) cur = true).
          { apply (Hwf a). unfold is_dir in Ed. destruct (fs_get (d_fs D) (a :: cur)); [discriminate|discriminate Ed]. }
          unfold is_dir in Z. now rewrite X in Z.
        + destruct (fs_get (d_fs D) (x :: cur)) eqn:Ex; [|discriminate]. apply (Y (x :: cur)); [congruence|exact Hw]. }
    destruct (G _ _ Er) as [X|X]; [exact X|]. now elim (split_slash_nonempty (c :: p)).
  - destruct (split_path p) as [d g]. destruct (_ || _); [discriminate|].
    destruct (match d with [] => Some (d_cwd D) | _ => resolve D d end) as [k|]; [|discriminate].
    destruct (is_dir (d_fs D) k) eqn:Ek; [|discriminate]. injection H as <-. exact Ek.
Qed.

Section Tree.
Variable B : list ev.
Variable E : loc * (loc -> bool) * N * option bytes.
Notation J := (since B E wf_fs).

Lemma tree_open p perm : keeps J (open_trunc p perm).
Proof.
  intros w H. unfold open_trunc. destruct (resolve_new (w_disk w) p) as [l|] eqn:Er; [|exact H].
  assert (Hwf := proj1 (proj2 H)).
  assert (G : forall mode, fs_get (w_fs w) l <> Some NDir -> J (fst (bind (change (fs_set l (NFile [] mode)))
                         (fun ok => ret (if ok then Some l else None)) w))).
  { intros mode Hd. assert (Hi : wf_fs (fs_set l (NFile [] mode) (w_fs w))).
    { apply tree_file; [exact Hwf|unfold is_dir; destruct (fs_get (w_fs w) l) as [[|]|]; congruence|].
      exact (resolve_new_parent _ _ _ Hwf Er Hd). }
    unfold bind, change. destruct (w_faults w) as [|[n|] fl]; cbn [fst ret]; [now apply always_put|exact H|now apply always_put]. }
  destruct (fs_get (w_fs w) l) as [[c m|]|] eqn:Eg; [apply G; congruence|exact H|apply G; congruence].
Qed.

Lemma tree_save p data whole : keeps J (save_stream p data whole).
Proof.
  apply keeps_bind; [apply tree_open|]. intros [l|]; [|apply keeps_ret].
  apply keeps_bind; [|intros; apply keeps_ret]. apply keeps_write. intros f c m c' Hf Hg. now apply (tree_rewrite f l c m).
Qed.

Lemma tree_download p u : keeps J (download p u).
Proof. apply keeps_bind; [apply keeps_http|]. intros [|body c]; [apply keeps_ret|apply tree_save]. Qed.

Lemma tree_entries es proper : keeps J (extract_entries cache_dir es proper).
Proof.
  induction es as [|e es IH]; cbn [extract_entries]; [apply keeps_ret|]. destruct (e_regular e); [|exact IH].
  apply keeps_bind; [apply tree_save|]. intros [|]; [exact IH|apply keeps_ret].
Qed.

Lemma tree_extract T src : keeps J (extract T src cache_dir).
Proof.
  apply keeps_bind; [apply keeps_read|]. intros [s|]; [|apply keeps_ret]. destruct (T s) as [[es proper]|]; [apply tree_entries|apply keeps_ret].
Qed.

Definition deep_first (ls : list loc) : Prop := forall xs l ys, ls = xs ++ l :: ys -> Forall (fun k => length k <= length l) ys.

Lemma tree_unlink ls : deep_first ls -> forall w, J w ->
  (forall e l, In l ls -> fs_get (w_fs w) (e :: l) <> None -> In (e :: l) ls) -> J (fst (unlink_all ls w)).
Proof.
  induction ls as [|l ls IH]; intros Hd w Hw Hc; cbn [unlink_all]; [exact Hw|].
  assert (Hdel : wf_fs (fs_del l (w_fs w))).
  { apply tree_del; [exact (proj1 (proj2 Hw))|]. intros e. destruct (fs_get (w_fs w) (e :: l)) eqn:Eg; [|reflexivity].
    assert (X : In (e :: l) (l :: ls)) by (apply Hc; [now left|congruence]). exfalso. destruct X as [X|X].
    - apply (f_equal (@length bytes)) in X. cbn [length] in X. lia.
    - assert (Y := Hd [] l ls eq_refl). rewrite Forall_forall in Y. specialize (Y _ X). cbn [length] in Y. lia. }
  assert (Hd' : deep_first ls) by (intros xs k ys ->; apply (Hd (l :: xs) k ys); reflexivity).
  assert (G : forall w1, w_fs w1 = w_fs w -> J w1 -> J (fst (unlink_all ls (put_fs (fs_del l (w_fs w)) w1)))).
  { intros w1 _ Hw1. apply IH; [exact Hd'|now apply always_put|]. cbn [put_fs]. intros e k Hk Hg.
    change (fs_get (fs_del l (w_fs w)) (e :: k) <> None) in Hg.
    destruct (loc_eqb (e :: k) l) eqn:E1; [apply loc_eqb_eq in E1; subst l; rewrite fs_get_del_same in Hg by discriminate; congruence|].
    apply loc_eqb_neq in E1. rewrite fs_get_del_other in Hg by exact E1.
    destruct (Hc e k (or_intror Hk) Hg) as [X|X]; [congruence|exact X]. }
  unfold bind, change. destruct (w_faults w) as [|[n|] fl]; cbn iota beta.
  - exact (G w eq_refl Hw).
  - exact Hw.
  - exact (G (set_faults fl w) eq_refl Hw).
Qed.

Lemma insert_deep_sorted l ls : deep_first ls -> deep_first (insert_deep l ls).
Proof.
  assert (C : forall k ks, deep_first (k :: ks) <-> Forall (fun x => length x <= length k) ks /\ deep_first ks).
  { intros k ks. split.
    - intros H. split; [exact (H [] k ks eq_refl)|]. intros xs x ys ->. exact (H (k :: xs) x ys eq_refl).
    - intros [H1 H2] [|a xs] x ys Heq; cbn in Heq; injection Heq as -> ->; [exact H1|exact (H2 xs x ys eq_refl)]. }
  induction ls as [|k ls IH]; intros H; cbn [insert_deep].
  - apply C. split; [constructor|]. intros [|a xs] x ys Heq; discriminate.
  - apply C in H. destruct H as [H1 H2]. destruct (Nat.ltb_spec (length l) (length k)) as [Hlt|Hge].
    + apply C. split; [|now apply IH]. apply Forall_forall. intros x Hx. apply insert_deep_in in Hx. destruct Hx as [->|Hx]; [lia|].
      rewrite Forall_forall in H1. now apply H1.
    + apply C. split; [|apply C; now split]. constructor; [lia|]. eapply Forall_impl; [|exact H1]. cbn beta. intros; lia.
Qed.

Lemma subtree_sorted f l : deep_first (subtree f l).
Proof.
  unfold subtree. induction (filter (below l) (map fst f)) as [|k ks IH]; cbn [fold_right]; [|now apply insert_deep_sorted].
  intros [|a xs] x ys Heq; discriminate.
Qed.

Lemma tree_remove p : keeps J (remove_all p).
Proof.
  intros w Hw. unfold remove_all. destruct (resolve (w_disk w) p) as [l|]; [|exact Hw].
  apply tree_unlink; [apply subtree_sorted|exact Hw|]. intros e k Hk Hg. apply subtree_in in Hk. destruct Hk as [_ Hk].
  apply subtree_in. split; [|now apply below_cons].
  destruct (fs_get (w_fs w) (e :: k)) as [n|] eqn:Eg; [|congruence]. now apply (fs_get_in _ _ n).
Qed.

Lemma tree_mkdir : keeps J (mkdir_all cache_dir).
Proof.
  intros w Hw. unfold mkdir_all. change (rooted cache_dir) with true. cbn iota.
  change (match cache_dir with [] => (w, Ok false) | _ => ?x end) with x.
  destruct (missing_dirs (w_fs w) [] (split_slash cache_dir)) as [ls|] eqn:Em; [|exact Hw].
  assert (Hmk : forall l w1, J w1 -> is_dir (w_fs w1) (tl l) = true -> J (fst (change (add_dir l) w1))).
  { intros l w1 Hw1 Hd.
    assert (X : wf_fs (add_dir l (w_fs w1))).
    { assert (Y := proj1 (proj2 Hw1)). unfold add_dir. destruct (fs_get (w_fs w1) l) eqn:Eg; [exact Y|now apply tree_dir]. }
    unfold change. destruct (w_faults w1) as [|[n|] fl]; cbn [fst]; [now apply always_put|exact Hw1|now apply always_put]. }
  assert (Hmiss := missing_missing _ _ (proj1 (proj2 Hw)) _ _ cacheL Em).
  assert (Hcache : forall w1, J w1 -> is_dir (w_fs w1) [b "tmp"] = true -> J (fst (make_dirs [cacheL] w1))).
  { intros w1 Hw1 Hd. cbn [make_dirs]. unfold bind, ret. assert (X := Hmk cacheL w1 Hw1 Hd). destruct (change (add_dir cacheL) w1) as [w2 [[|]| |n]]; exact X. }
  assert (Htmp : ls = [cacheL] -> is_dir (w_fs w) [b "tmp"] = true).
  { intros ->. change (split_slash cache_dir) with [[]; b "tmp"; b "1pass"] in Em. cbn [missing_dirs] in Em.
    change (bytes_eqb [] [] || bytes_eqb [] dot) with true in Em. cbn iota in Em.
    change (bytes_eqb (b "tmp") [] || bytes_eqb (b "tmp") dot) with false in Em. cbn iota in Em.
    change (bytes_eqb (b "tmp") dotdot) with false in Em. cbn iota in Em. unfold is_dir.
    destruct (fs_get (w_fs w) [b "tmp"]) as [[c m|]|]; [discriminate|reflexivity|].
    exfalso. assert (X : Some [[b "tmp"]; cacheL] = Some [cacheL]) by exact Em. discriminate X. }
  destruct (missing_cache _ _ Em) as [->|[->|[Hn ->]]]; [exact Hw|now apply Hcache; [|apply Htmp]|].
  change (make_dirs [[b "tmp"]; cacheL] w) with (bind (change (add_dir [b "tmp"])) (fun ok => if ok then make_dirs [cacheL] else ret false) w).
  unfold bind. assert (X := Hmk [b "tmp"] w Hw eq_refl).
  destruct (change (add_dir [b "tmp"]) w) as [w2 [[|]| |n]] eqn:Ec; try exact X.
  apply Hcache; [exact X|]. apply WorldProof.change_ok in Ec. destruct Ec as [Ef _]. rewrite Ef. unfold is_dir, add_dir. rewrite Hn.
  now rewrite fs_get_set_same.
Qed.

Lemma tree_replace : keeps J (replace_binary binary_path).
Proof.
  intros w Hw. unfold replace_binary, bind, executable. destruct (w_exe w) as [exe|]; [|exact Hw].
  unfold rename. destruct (resolve (w_disk w) binary_path) as [ls|] eqn:Es; [|exact Hw].
  destruct (resolve_new (w_disk w) exe) as [ld|] eqn:Ed; [|exact Hw].
  destruct (fs_get (w_fs w) ls) as [[c m|]|] eqn:Eg; try exact Hw.
  assert (Hwf := proj1 (proj2 Hw)).
  assert (G : fs_get (w_fs w) ld <> Some NDir -> ls <> ld ->
    J (fst (change (fun f => fs_set ld (NFile c m) (fs_del ls f)) w))).
  { intros Hd Hne. assert (X : wf_fs (fs_set ld (NFile c m) (fs_del ls (w_fs w)))).
    { assert (Hpar := resolve_new_parent _ _ _ Hwf Ed Hd). apply tree_file.
      - apply tree_del; [exact Hwf|]. intros e. destruct (fs_get (w_fs w) (e :: ls)) eqn:Ee; [|reflexivity].
        assert (X : is_dir (w_fs w) ls = true) by (apply (Hwf e); congruence). unfold is_dir in X. rewrite Eg in X. discriminate.
      - unfold is_dir. rewrite fs_get_del_other by congruence. destruct (fs_get (w_fs w) ld) as [[|]|]; congruence.
      - unfold is_dir in *. fold (w_fs w) in Hpar. rewrite fs_get_del_other; [exact Hpar|]. intros X. rewrite X, Eg in Hpar. discriminate. }
    unfold change. destruct (w_faults w) as [|[n|] fl]; cbn [fst]; [now apply always_put|exact Hw|now apply always_put]. }
  destruct (loc_eqb ls ld) eqn:El.
  - destruct (fs_get (w_fs w) ld) as [[c1 m1|]|]; exact Hw.
  - apply loc_eqb_neq in El. destruct (fs_get (w_fs w) ld) as [[c1 m1|]|]; [|exact Hw|]; apply G; congruence.
Qed.

Lemma tree_step1 : keeps J step1.
Proof.
  apply keeps_bind; [apply tree_remove|]. intros [|]; [|apply keeps_ret]. apply keeps_bind; [apply tree_mkdir|]. intros ok. apply keeps_ret.
Qed.

Lemma tree_stages stage C T info : keeps J (run_stages stage (steps C T info)).
Proof.
  apply keeps_run. unfold steps.
  repeat (apply Forall_cons; cbn [snd]; [|]); [apply tree_step1|apply keeps_as_step, tree_download|apply keeps_as_step, tree_download|
    apply keeps_as_step, tree_extract| |apply keeps_as_step, tree_replace|apply keeps_as_step, tree_remove|apply Forall_nil].
  intros w Hw. now rewrite validate_same.
Qed.
End Tree.

(** ** A run without faults *)

(** What stays the same while nothing fails. *)
Definition calm (w w' : world) : Prop := w_faults w = [] /\ w_faults w' = [] /\ env w' = env w.

Lemma calm_refl w : w_faults w = [] -> calm w w.
Proof. intros H. repeat split; exact H. Qed.
Lemma calm_trans w1 w2 w3 : calm w1 w2 -> calm w2 w3 -> calm w1 w3.
Proof. intros (A & _ & B) (_ & C & D). repeat split; try assumption. congruence. Qed.

Lemma change_calm g w : w_faults w = [] -> exists w', change g w = (w', Ok true) /\ calm w w' /\ w_fs w' = g (w_fs w) /\ w_net w' = w_net w.
Proof. intros H. unfold change. rewrite H. eexists. split; [reflexivity|]. repeat split; exact H. Qed.

Lemma unlink_calm ls : forall w, w_faults w = [] -> exists w', unlink_all ls w = (w', Ok true) /\ calm w w'.
Proof.
  induction ls as [|l ls IH]; intros w Hw; cbn [unlink_all]; [exists w; split; [reflexivity|now apply calm_refl]|].
  unfold bind. destruct (change_calm (fs_del l) w Hw) as (w1 & -> & C1 & _).
  destruct (IH w1 (proj1 (proj2 C1))) as (w2 & -> & C2). exists w2. split; [reflexivity|now apply (calm_trans w w1)].
Qed.

Lemma remove_calm p w : w_faults w = [] -> exists w', remove_all p w = (w', Ok true) /\ calm w w'.
Proof.
  intros Hw. unfold remove_all. destruct (resolve (w_disk w) p) as [l|]; [now apply unlink_calm|].
  exists w. split; [reflexivity|now apply calm_refl].
Qed.

Lemma save_calm p data w l : w_faults w = [] -> resolve_new (w_disk w) p = Some l -> is_dir (w_fs w) l = false ->
  exists w', save_stream p data true w = (w', Ok true) /\ calm w w' /\ saved p data 438 w w' /\ w_net w' = w_net w.
Proof.
  intros Hw Hr Hd. destruct (open_trunc_fine p 438 w l Hw Hr Hd) as (w1 & Ho & Hf1).
  assert (X : save_stream p data true w = (append_bytes l data w1, Ok true)).
  { unfold save_stream, bind. rewrite Ho. unfold write_bytes. rewrite Hf1. reflexivity. }
  exists (append_bytes l data w1). split; [exact X|].
  assert (N := offline_save p data true w). rewrite X in N.
  destruct (save_stream_ok _ _ _ _ _ X) as [_ S]. split; [|split; [exact S|exact N]].
  destruct S as (l' & _ & _ & _ & _ & _ & _ & He). repeat split; [exact Hw|now rewrite append_faults|exact He].
Qed.

(** The cache as it is while files are put into it. *)
Definition only_files (u : N) (f : fs) : Prop := cache_dirs f /\
  forall k n, below cacheL k = true -> k <> cacheL -> fs_get f k = Some n -> exists c, n = NFile c (N.ldiff 438 u).

Lemma gone_below w : wf_fs (w_fs w) -> resolve (w_disk w) cache_dir = None ->
  forall k, below cacheL k = true -> fs_get (w_fs w) k = None.
Proof.
  intros Hwf E k Hk. apply below_spec in Hk. destruct Hk as [x ->].
  assert (G : fs_get (w_fs w) cacheL = None).
  { destruct (fs_get (w_fs w) cacheL) as [n|] eqn:Ec; [|reflexivity].
    assert (Hd : is_dir (w_fs w) [b "tmp"] = true) by (apply (Hwf (b "1pass")); unfold cacheL in Ec; congruence).
    rewrite resolve_cache in E. unfold is_dir in Hd. unfold w_fs in *. rewrite Ec in E.
    destruct (fs_get _ [b "tmp"]) as [[|]|]; discriminate. }
  induction x as [|e x IH]; [exact G|]. cbn [app]. destruct (fs_get (w_fs w) (e :: x ++ cacheL)) eqn:Ex; [|reflexivity].
  assert (Hd : is_dir (w_fs w) (x ++ cacheL) = true) by (apply (Hwf e); congruence).
  unfold is_dir in Hd. rewrite IH in Hd. discriminate.
Qed.

Lemma resolve_cache_is D l : resolve D cache_dir = Some l -> l = cacheL.
Proof. rewrite resolve_cache. destruct (fs_get (d_fs D) [b "tmp"]) as [[|]|], (fs_get (d_fs D) cacheL); congruence. Qed.

(** Removing the cache leaves nothing of it and touches nothing else. *)
Lemma removed_all w w' : wf_fs (w_fs w) -> remove_all cache_dir w = (w', Ok true) ->
  (forall k, below cacheL k = true -> fs_get (w_fs w') k = None) /\
  (forall k, below cacheL k = false -> fs_get (w_fs w') k = fs_get (w_fs w) k).
Proof.
  intros Hwf H. destruct (resolve (w_disk w) cache_dir) as [l|] eqn:E.
  - assert (X := resolve_cache_is _ _ E). subst l. destruct (removed_cache _ _ E H) as (_ & H1 & H2). auto.
  - assert (X := gone_below _ Hwf E). unfold remove_all in H. rewrite E in H. assert (w = w') by congruence. subst w'. auto.
Qed.

(** Making it when nothing of it is left. *)
Lemma mkdir_calm w : w_faults w = [] -> (forall c m, fs_get (w_fs w) [b "tmp"] <> Some (NFile c m)) ->
  (forall k, below cacheL k = true -> fs_get (w_fs w) k = None) ->
  exists w', mkdir_all cache_dir w = (w', Ok true) /\ calm w w' /\ cache_dirs (w_fs w') /\
    (forall k, k <> cacheL -> k <> [b "tmp"] -> fs_get (w_fs w') k = fs_get (w_fs w) k) /\ w_net w' = w_net w.
Proof.
  intros Hw Htmp Hgone. unfold mkdir_all. change (rooted cache_dir) with true. cbn iota.
  change (match cache_dir with [] => (w, Ok false) | _ => ?x end) with x.
  assert (Hc : fs_get (w_fs w) cacheL = None) by (apply Hgone; reflexivity).
  assert (Em : missing_dirs (w_fs w) [] (split_slash cache_dir) =
    match fs_get (w_fs w) [b "tmp"] with Some NDir => Some [cacheL] | Some _ => None | None => Some [[b "tmp"]; cacheL] end).
  { change (split_slash cache_dir) with [[]; b "tmp"; b "1pass"]. cbn [missing_dirs].
    change (bytes_eqb [] [] || bytes_eqb [] dot) with true. cbn iota.
    change (bytes_eqb (b "tmp") [] || bytes_eqb (b "tmp") dot) with false. cbn iota.
    change (bytes_eqb (b "tmp") dotdot) with false. cbn iota.
    destruct (fs_get (w_fs w) [b "tmp"]) as [[c m|]|]; [reflexivity| |reflexivity].
    change (bytes_eqb (b "1pass") [] || bytes_eqb (b "1pass") dot) with false. cbn iota.
    change (bytes_eqb (b "1pass") dotdot) with false. cbn iota. fold cacheL. rewrite Hc. reflexivity. }
  rewrite Em. clear Em.
  assert (Hcache : forall w1, w_faults w1 = [] -> fs_get (w_fs w1) [b "tmp"] = Some NDir -> fs_get (w_fs w1) cacheL = None ->
    exists w', make_dirs [cacheL] w1 = (w', Ok true) /\ calm w1 w' /\ cache_dirs (w_fs w') /\
      (forall k, k <> cacheL -> fs_get (w_fs w') k = fs_get (w_fs w1) k) /\ w_net w' = w_net w1).
  { intros w1 H1 H2 H3. cbn [make_dirs]. unfold bind, ret. destruct (change_calm (add_dir cacheL) w1 H1) as (w' & -> & C & F & N).
    exists w'. split; [reflexivity|]. split; [exact C|]. rewrite F. unfold add_dir. rewrite H3.
    split; [split; [rewrite fs_get_set_other by discriminate; exact H2|now apply fs_get_set_same]|].
    split; [intros k Hk; now apply fs_get_set_other|exact N]. }
  destruct (fs_get (w_fs w) [b "tmp"]) as [[c m|]|] eqn:Et; [now elim (Htmp c m)| |].
  - destruct (Hcache w Hw Et Hc) as (w' & H1 & H2 & H3 & H4 & H5). exists w'. split; [exact H1|]. split; [exact H2|]. split; [exact H3|]. split; [intros k Hk _; now apply H4|exact H5].
  - change (make_dirs [[b "tmp"]; cacheL] w) with (bind (change (add_dir [b "tmp"])) (fun ok => if ok then make_dirs [cacheL] else ret false) w).
    unfold bind. destruct (change_calm (add_dir [b "tmp"]) w Hw) as (w1 & -> & C1 & F1 & N1).
    unfold add_dir in F1. rewrite Et in F1.
    destruct (Hcache w1 (proj1 (proj2 C1))) as (w' & H1 & H2 & H3 & H4 & H5).
    + rewrite F1. now apply fs_get_set_same.
    + rewrite F1, fs_get_set_other by discriminate. exact Hc.
    + exists w'. split; [exact H1|]. split; [now apply (calm_trans w w1)|]. split; [exact H3|]. split; [|congruence].
      intros k Hk1 Hk2. rewrite H4 by exact Hk1. rewrite F1. now apply fs_get_set_other.
Qed.

Lemma step1_calm w : wf_fs (w_fs w) -> w_faults w = [] -> (forall c m, fs_get (w_fs w) [b "tmp"] <> Some (NFile c m)) ->
  exists w', step1 w = (w', Ok None) /\ calm w w' /\ cache_dirs (w_fs w') /\ w_net w' = w_net w /\
    (forall k, below cacheL k = true -> k <> cacheL -> fs_get (w_fs w') k = None) /\
    (forall k, below cacheL k = false -> k <> [b "tmp"] -> fs_get (w_fs w') k = fs_get (w_fs w) k).
Proof.
  intros Hwf Hw Htmp. unfold step1, bind. destruct (remove_calm cache_dir w Hw) as (w1 & E1 & C1).
  assert (N1 := offline_remove cache_dir w). rewrite E1 in N1. cbn [fst] in N1.
  destruct (removed_all _ _ Hwf E1) as [G1 G2]. rewrite E1.
  destruct (mkdir_calm w1 (proj1 (proj2 C1))) as (w2 & E2 & C2 & D2 & O2 & N2).
  - intros c m. rewrite G2 by reflexivity. apply Htmp.
  - exact G1.
  - unfold as_step, bind, ret. rewrite E2. exists w2. split; [reflexivity|]. split; [now apply (calm_trans w w1)|].
    split; [exact D2|]. split; [congruence|]. split.
    + intros k Hk Hne. rewrite O2; [now apply G1|exact Hne|]. intros ->. discriminate.
    + intros k Hk Hne. rewrite O2; [now apply G2| |exact Hne]. intros ->. discriminate.
Qed.

(** ** Names of files in the cache *)

Definition kept (c : bytes) : bool := negb (bytes_eqb c [] || bytes_eqb c dot).

Lemma clean_elems_filter r es : forall acc, clean_elems r acc es = clean_elems r acc (filter kept es).
Proof.
  induction es as [|e es IH]; intros acc; cbn [filter]; [reflexivity|]. unfold kept at 1. cbn [clean_elems].
  destruct (bytes_eqb e [] || bytes_eqb e dot) eqn:E1; cbn [negb]; [apply IH|]. cbn [clean_elems]. rewrite E1.
  destruct (bytes_eqb e dotdot); [|apply IH]. destruct acc as [|a acc]; [destruct r; apply IH|].
  destruct (bytes_eqb a dotdot); apply IH.
Qed.

Lemma parts_plain name n : parts name = [n] -> n <> dotdot -> plain_name n /\ ~ In dotdot (split_slash name).
Proof.
  intros H Hn. assert (X : In n (parts name)) by (rewrite H; now left). apply filter_In in X. destruct X as [X1 X2].
  apply Bool.negb_true_iff, Bool.orb_false_iff in X2. destruct X2 as [X2 X3]. apply bytes_eqb_neq in X2, X3.
  split.
  - split; [repeat split; assumption|]. assert (Y := split_slash_no_slash name). rewrite Forall_forall in Y. now apply Y.
  - intros Y. apply Hn. assert (Z : In dotdot (parts name)) by (apply filter_In; split; [exact Y|reflexivity]).
    rewrite H in Z. destruct Z as [Z|[]]. exact Z.
Qed.

Lemma parts_self n : plain_name n -> parts n = [n].
Proof.
  intros ((H1 & H2 & H3) & H4). unfold parts. rewrite split_slash_plain by exact H4. cbn [filter].
  apply bytes_eqb_neq in H1, H2. now rewrite H1, H2.
Qed.

Lemma join_parts p x y : p <> [] -> parts x = parts y -> join_path [p; x] = join_path [p; y].
Proof.
  intros Hp H. rewrite !join_path_cons by exact Hp. cbn [join_slash]. unfold clean. rewrite !rooted_app by exact Hp.
  rewrite !split_slash_app_slash. rewrite (clean_elems_filter _ (split_slash p ++ split_slash x)), (clean_elems_filter _ (split_slash p ++ split_slash y)).
  rewrite !filter_app. unfold parts in H. fold kept in H. now rewrite H.
Qed.

Lemma cache_resolves D : cache_dirs (d_fs D) -> resolve D cache_dir = Some cacheL.
Proof. intros [H1 H2]. rewrite resolve_cache. now rewrite H1, H2. Qed.

Lemma cache_new D n : cache_dirs (d_fs D) -> plain_name n -> resolve_new D (join_path [cache_dir; n]) = Some (n :: cacheL).
Proof.
  intros H Hn. apply resolve_new_join; [now apply cache_resolves|unfold is_dir; now rewrite (proj2 H)|exact Hn].
Qed.

Lemma cache_found D n c m : cache_dirs (d_fs D) -> plain_name n -> fs_get (d_fs D) (n :: cacheL) = Some (NFile c m) ->
  resolve D (join_path [cache_dir; n]) = Some (n :: cacheL).
Proof.
  intros H Hn Hg. assert (Hj := resolve_join D cache_dir cacheL [n] (cache_resolves D H) ltac:(discriminate) (Forall_cons _ Hn (Forall_nil _))).
  rewrite walk_normal in Hj by apply Hn. unfold is_dir in Hj. rewrite (proj2 H), Hg in Hj. exact Hj.
Qed.

Lemma below_name n : below cacheL (n :: cacheL) = true.
Proof. apply below_spec. exists [n]. reflexivity. Qed.
Lemma name_neq n : n :: cacheL <> cacheL.
Proof. intros H. apply (f_equal (@length bytes)) in H. cbn in H. lia. Qed.

(** Saving a file in the cache. *)
Lemma cache_save n name data w : w_faults w = [] -> only_files (w_umask w) (w_fs w) -> parts name = [n] -> n <> dotdot ->
  exists w', save_stream (join_path [cache_dir; name]) data true w = (w', Ok true) /\ calm w w' /\ only_files (w_umask w) (w_fs w') /\ w_net w' = w_net w /\
    fs_get (w_fs w') (n :: cacheL) = Some (NFile data (N.ldiff 438 (w_umask w))) /\
    (forall k, k <> n :: cacheL -> fs_get (w_fs w') k = fs_get (w_fs w) k).
Proof.
  intros Hw [Hc Ho] Hp Hn. destruct (parts_plain name n Hp Hn) as [Hpl _].
  rewrite (join_parts cache_dir name n) by (discriminate || (rewrite (parts_self n Hpl); exact Hp)).
  assert (Hr := cache_new (w_disk w) n Hc Hpl).
  destruct (save_calm _ data w _ Hw Hr) as (w' & H1 & H2 & H3 & H4).
  { unfold is_dir. assert (X := Ho (n :: cacheL)). destruct (fs_get (w_fs w) (n :: cacheL)) as [[|]|]; try reflexivity.
    destruct (X NDir (below_name n) (name_neq n) eq_refl) as [c Hx]. discriminate. }
  destruct H3 as (l & Hl & _ & _ & _ & Hg & Hoth & _). assert (l = n :: cacheL) by congruence. subst l.
  assert (Hg' : fs_get (w_fs w') (n :: cacheL) = Some (NFile data (N.ldiff 438 (w_umask w)))).
  { rewrite Hg. assert (X := Ho (n :: cacheL)). destruct (fs_get (w_fs w) (n :: cacheL)) as [[c m|]|]; try reflexivity.
    destruct (X _ (below_name n) (name_neq n) eq_refl) as [c' Hx]. congruence. }
  exists w'. split; [exact H1|]. split; [exact H2|]. split; [|auto]. split.
  - destruct Hc as [Hc1 Hc2]. split; (rewrite Hoth; [assumption|]); [discriminate|intros X; symmetry in X; now apply name_neq in X].
  - intros k x Hk Hne Hx. destruct (loc_eqb k (n :: cacheL)) eqn:E.
    + apply loc_eqb_eq in E. subst k. rewrite Hg' in Hx. injection Hx as <-. eauto.
    + apply loc_eqb_neq in E. rewrite Hoth in Hx by exact E. exact (Ho k x Hk Hne Hx).
Qed.

Lemma cache_download n u body rest w : u <> [] -> w_net w = NetBody body true :: rest ->
  w_faults w = [] -> only_files (w_umask w) (w_fs w) -> parts n = [n] -> n <> dotdot ->
  exists w', download (join_path [cache_dir; n]) u w = (w', Ok true) /\ calm w w' /\ only_files (w_umask w) (w_fs w') /\ w_net w' = rest /\
    (exists m, fs_get (w_fs w') (n :: cacheL) = Some (NFile body m)) /\
    (forall k, k <> n :: cacheL -> fs_get (w_fs w') k = fs_get (w_fs w) k).
Proof.
  intros Hu Hn Hw Ho Hp Hd. unfold download, bind, http_get. destruct u as [|c u]; [congruence|]. rewrite Hn.
  destruct (cache_save n n body (set_net rest (add_event (EGet (c :: u)) w)) Hw Ho Hp Hd) as (w' & H1 & H2 & H3 & H4 & H5 & H6).
  exists w'. split; [exact H1|]. split; [exact H2|]. split; [exact H3|]. split; [exact H4|]. split; [eauto|exact H6].
Qed.

Lemma calm_umask w w' : calm w w' -> w_umask w' = w_umask w.
Proof. intros (_ & _ & H). apply env_disk in H. apply H. Qed.

(** The entries of an archive without directories. *)
Definition flat_file (e : entry) (n : bytes) : Prop := e_whole e = true /\ parts (e_name e) = [n] /\ n <> dotdot.

Lemma entries_calm es : Forall (fun e => e_regular e = true -> exists n, flat_file e n) es -> forall w, w_faults w = [] -> only_files (w_umask w) (w_fs w) ->
  exists w', extract_entries cache_dir es true w = (w', Ok true) /\ calm w w' /\ only_files (w_umask w) (w_fs w') /\
    (forall before e after n, es = before ++ e :: after -> e_regular e = true -> parts (e_name e) = [n] ->
       Forall (fun e => e_regular e = true -> parts (e_name e) <> [n]) after ->
       fs_get (w_fs w') (n :: cacheL) = Some (NFile (e_data e) (N.ldiff 438 (w_umask w)))) /\
    (forall k, (forall n, Exists (fun e => e_regular e = true /\ parts (e_name e) = [n]) es -> k <> n :: cacheL) ->
       fs_get (w_fs w') k = fs_get (w_fs w) k).
Proof.
  induction es as [|e es IH]; intros Hes w Hw Ho; cbn [extract_entries].
  - exists w. split; [reflexivity|]. split; [now apply calm_refl|]. split; [exact Ho|]. split; [intros [|? ?] ? ? ? X; discriminate|auto].
  - inversion Hes as [|? ? He Hes' X1]; subst. destruct (e_regular e) eqn:Er.
    + destruct (He eq_refl) as (n & Hwh & Hp & Hn). rewrite Hwh.
      destruct (cache_save n (e_name e) (e_data e) w Hw Ho Hp Hn) as (w1 & H1 & H2 & H3 & H4 & H5 & H6).
      unfold bind. rewrite H1. assert (Hu := calm_umask _ _ H2). rewrite <- Hu in H3.
      destruct (IH Hes' w1 (proj1 (proj2 H2)) H3) as (w2 & G1 & G2 & G3 & G4 & G5). rewrite Hu in G3, G4.
      exists w2. split; [exact G1|]. split; [now apply (calm_trans w w1)|]. split; [exact G3|]. split.
      * intros before x after n' Heq Hxr Hxp Haft. destruct before as [|y before]; cbn in Heq; injection Heq as -> Heq.
        -- subst after. assert (n' = n) by congruence. subst n'. rewrite G5, H5; [reflexivity|].
           intros n' Hex Hx. assert (n' = n) by congruence. subst n'. apply Exists_exists in Hex. destruct Hex as (z & Hz & Hzr & Hzp).
           rewrite Forall_forall in Haft. now apply (Haft z Hz).
        -- exact (G4 before x after n' Heq Hxr Hxp Haft).
      * intros k Hk. rewrite G5 by (intros n' Hex; apply Hk; now right). apply H6. apply Hk. left. auto.
    + destruct (IH Hes' w Hw Ho) as (w2 & G1 & G2 & G3 & G4 & G5).
      exists w2. split; [exact G1|]. split; [exact G2|]. split; [exact G3|]. split.
      * intros before x after n' Heq Hxr Hxp Haft. destruct before as [|y before]; cbn in Heq; injection Heq as -> Heq; [congruence|].
        exact (G4 before x after n' Heq Hxr Hxp Haft).
      * intros k Hk. apply G5. intros n' Hex. apply Hk. now right.
Qed.

(** ** Where the program lies *)

Lemma walk_below f es : ~ In dotdot es -> forall cur l, walk f cur es = Some l -> below cur l = true.
Proof.
  intros Hd cur l H. apply walk_lexical in H. subst l. rewrite lexical_parts by exact Hd. apply below_spec. eauto.
Qed.

(** A path without "..": what matters is what lies on the way. *)
Lemma walk_same f f' es l : ~ In dotdot es ->
  (forall k, below k l = true -> fs_get f k <> None -> fs_get f' k <> None) ->
  (forall k, below k l = true -> is_dir f k = true -> is_dir f' k = true) ->
  forall cur, walk f cur es = Some l -> walk f' cur es = Some l.
Proof.
  intros Hd H1 H2. induction es as [|e es IH]; intros cur H; [exact H|].
  assert (Hd' : ~ In dotdot es) by (intros X; apply Hd; now right).
  assert (Hb := walk_below _ _ Hd _ _ H). cbn [walk] in *.
  destruct (is_dir f cur) eqn:Ec; [|discriminate]. rewrite (H2 cur Hb Ec). cbn [negb] in *.
  destruct (bytes_eqb e [] || bytes_eqb e dot); [now apply IH|].
  destruct (bytes_eqb e dotdot) eqn:E2; [apply bytes_eqb_eq in E2; subst e; elim Hd; now left|].
  destruct (fs_get f (e :: cur)) eqn:Eg; [|discriminate].
  assert (Hb' := walk_below _ _ Hd' _ _ H).
  assert (X := H1 _ Hb' ltac:(congruence)). destruct (fs_get f' (e :: cur)); [|congruence]. now apply IH.
Qed.

Lemma resolve_same D D' p l : ~ In dotdot (split_slash p) -> d_cwd D' = d_cwd D ->
  (forall k, below k l = true -> fs_get (d_fs D) k <> None -> fs_get (d_fs D') k <> None) ->
  (forall k, below k l = true -> is_dir (d_fs D) k = true -> is_dir (d_fs D') k = true) ->
  resolve D p = Some l -> resolve D' p = Some l.
Proof.
  intros Hd Hc H1 H2 H. destruct p as [|c p]; [discriminate|]. unfold resolve in *. rewrite Hc. now apply (walk_same (d_fs D)).
Qed.

Lemma outside_above k l : below cacheL l = false -> below k l = true -> below cacheL k = false.
Proof.
  intros Hl Hk. destruct (below cacheL k) eqn:E; [|reflexivity]. apply below_spec in Hk, E. destruct Hk as [x ->]. destruct E as [y ->].
  rewrite <- Hl. symmetry. apply below_spec. exists (x ++ y). now rewrite <- app_assoc.
Qed.

(** ** The whole run *)

Lemma step_ok stage n s l w w1 : s (fst (announce stage n w)) = (w1, Ok None) -> run_stages stage ((n, s) :: l) w = run_stages stage l w1.
Proof. intros H. cbn [run_stages]. unfold bind. unfold announce in *. cbn [fst] in H. rewrite H. reflexivity. Qed.

Lemma as_step_fine m w w1 : m w = (w1, Ok true) -> as_step m w = (w1, Ok None).
Proof. intros H. unfold as_step, bind, ret. now rewrite H. Qed.

Lemma announce_calm stage n w : w_faults w = [] -> calm w (fst (announce stage n w)).
Proof. intros H. repeat split; exact H. Qed.

Lemma read_cached w n c m : cache_dirs (w_fs w) -> plain_name n -> fs_get (w_fs w) (n :: cacheL) = Some (NFile c m) ->
  d_unreadable (w_disk w) (n :: cacheL) = false -> read_file (w_disk w) (join_path [cache_dir; n]) = Some c.
Proof.
  intros Hc Hn Hg Hu. unfold read_file. rewrite (cache_found (w_disk w) n c m Hc Hn Hg). unfold w_fs in Hg. now rewrite Hg, Hu.
Qed.

Lemma plain_archive : plain_name archive_name /\ archive_name <> dotdot.
Proof. split; [|discriminate]. split; [repeat split; discriminate|]. intros H. vm_compute in H. intuition discriminate. Qed.
Lemma plain_checksum : plain_name checksum_name /\ checksum_name <> dotdot.
Proof. split; [|discriminate]. split; [repeat split; discriminate|]. intros H. vm_compute in H. intuition discriminate. Qed.
Lemma plain_program : plain_name app_name /\ app_name <> dotdot.
Proof. split; [|discriminate]. split; [repeat split; discriminate|]. intros H. vm_compute in H. intuition discriminate. Qed.

(** The run of all stages when nothing fails and the answers are good. *)
Lemma stages_calm C T stage info w exe L old mode archive sums rest es before e after :
  wf_fs (w_fs w) -> w_faults w = [] -> (forall c m, fs_get (w_fs w) [b "tmp"] <> Some (NFile c m)) ->
  (forall k, below cacheL k = true -> d_unreadable (w_disk w) k = false) ->
  w_exe w = Some exe -> ~ In dotdot (split_slash exe) -> resolve (w_disk w) exe = Some L -> fs_get (w_fs w) L = Some (NFile old mode) ->
  below cacheL L = false ->
  w_net w = NetBody archive true :: NetBody sums true :: rest -> ui_archive info <> [] -> ui_checksum info <> [] ->
  T archive = Some (es, true) ->
  Forall (fun e => e_regular e = true -> exists n, flat_file e n /\ n <> checksum_name) es ->
  es = before ++ e :: after -> e_regular e = true -> parts (e_name e) = [app_name] ->
  Forall (fun e => e_regular e = true -> parts (e_name e) <> [app_name]) after ->
  (forall w', read_file (w_disk w') checksum_path = Some sums -> read_file (w_disk w') binary_path = Some (e_data e) ->
     validate_checksum C binary_path checksum_path w' = (w', Ok None)) ->
  exists w', run_stages stage (steps C T info) w = (w', Ok None) /\
    fs_get (w_fs w') L = Some (NFile (e_data e) (N.ldiff 438 (w_umask w))) /\
    (forall k, below cacheL k = true -> fs_get (w_fs w') k = None) /\
    (forall k, below cacheL k = false -> k <> L -> k <> [b "tmp"] -> fs_get (w_fs w') k = fs_get (w_fs w) k).
Proof.
  intros Hwf Hf Htmp Hread Hexe Hdd Hres Hold Hout Hnet Hua Huc HT Hflat Hes Her Hep Hafter Hval. unfold steps.
  destruct plain_archive as [Pa1 Pa2]. destruct plain_checksum as [Pc1 Pc2]. destruct plain_program as [Pb1 Pb2].
  (* 1 *)
  destruct (step1_calm (fst (announce stage 1 w)) Hwf Hf Htmp) as (w1 & S1 & C1 & D1 & N1 & G1 & O1).
  rewrite (step_ok stage 1 step1 _ w w1 S1).
  change (calm w w1) in C1. change (w_net w1 = w_net w) in N1. change (forall k, below cacheL k = false -> k <> [b "tmp"] -> fs_get (w_fs w1) k = fs_get (w_fs w) k) in O1.
  assert (F1 : only_files (w_umask w1) (w_fs w1)).
  { split; [exact D1|]. intros k n Hk Hne Hg. rewrite G1 in Hg by assumption. discriminate. }
  assert (U1 := calm_umask _ _ C1).
  (* 2 *)
  destruct (cache_download archive_name (ui_archive info) archive (NetBody sums true :: rest) (fst (announce stage 2 w1)) Hua
    ltac:(change (w_net w1 = NetBody archive true :: NetBody sums true :: rest); congruence) (proj1 (proj2 C1)) F1 (parts_self _ Pa1) Pa2)
    as (w2 & S2 & C2 & F2 & N2 & (ma & A2) & O2).
  change (w_umask (fst (announce stage 2 w1))) with (w_umask w1) in F2. change (calm w1 w2) in C2.
  rewrite (step_ok stage 2 _ _ w1 w2 (as_step_fine _ _ _ S2)).
  assert (U2 := calm_umask _ _ C2). rewrite <- U2 in F2.
  (* 3 *)
  destruct (cache_download checksum_name (ui_checksum info) sums rest (fst (announce stage 3 w2)) Huc N2 (proj1 (proj2 C2)) F2 (parts_self _ Pc1) Pc2)
    as (w3 & S3 & C3 & F3 & N3 & (mc & A3) & O3).
  change (w_umask (fst (announce stage 3 w2))) with (w_umask w2) in F3. change (calm w2 w3) in C3.
  rewrite (step_ok stage 3 _ _ w2 w3 (as_step_fine _ _ _ S3)).
  assert (U3 := calm_umask _ _ C3). rewrite <- U3 in F3.
  assert (C03 : calm w w3) by (apply (calm_trans w w1); [exact C1|apply (calm_trans w1 w2); assumption]).
  assert (Hrd : forall w', calm w w' -> forall k, below cacheL k = true -> d_unreadable (w_disk w') k = false).
  { intros w' (_ & _ & He) k Hk. apply env_disk in He. destruct He as [He _]. rewrite He. cbn [d_unreadable]. now apply Hread. }
  (* 4 *)
  assert (Ra : read_file (w_disk (fst (announce stage 4 w3))) archive_path = Some archive).
  { apply (read_cached (fst (announce stage 4 w3)) archive_name archive ma); [exact (proj1 F3)|exact Pa1| |].
    - change (fs_get (w_fs w3) (archive_name :: cacheL) = Some (NFile archive ma)). rewrite O3 by discriminate. exact A2.
    - apply (Hrd w3 C03). apply below_name. }
  destruct (entries_calm es) with (w := fst (announce stage 4 w3)) as (w4 & S4 & C4 & F4 & B4 & K4).
  { eapply Forall_impl; [|exact Hflat]. cbn beta. intros x Hx Hr. destruct (Hx Hr) as (n & Hn & _). eauto. }
  { exact (proj1 (proj2 C03)). }
  { exact F3. }
  change (w_umask (fst (announce stage 4 w3))) with (w_umask w3) in F4, B4. change (calm w3 w4) in C4.
  assert (X4 : extract T archive_path cache_dir (fst (announce stage 4 w3)) = (w4, Ok true)).
  { unfold extract, bind, io_read. rewrite Ra, HT. exact S4. }
  rewrite (step_ok stage 4 _ _ w3 w4 (as_step_fine _ _ _ X4)).
  assert (U4 := calm_umask _ _ C4).
  assert (C04 := calm_trans _ _ _ C03 C4).
  assert (B := B4 before e after app_name Hes Her Hep Hafter).
  assert (K : fs_get (w_fs w4) (checksum_name :: cacheL) = Some (NFile sums mc)).
  { rewrite K4; [exact A3|]. intros n Hex X. assert (n = checksum_name) by congruence. subst n. apply Exists_exists in Hex.
    destruct Hex as (z & Hz & Hzr & Hzp). rewrite Forall_forall in Hflat. destruct (Hflat z Hz Hzr) as (n & (_ & Hn & _) & Hnc). congruence. }
  assert (Hsame : forall k, below cacheL k = false -> k <> [b "tmp"] -> fs_get (w_fs w4) k = fs_get (w_fs w) k).
  { intros k Hk Hkt. assert (Hn : forall n, k <> n :: cacheL) by (intros n ->; rewrite below_name in Hk; discriminate).
    rewrite K4 by (intros n _; apply Hn).
    transitivity (fs_get (w_fs w2) k); [exact (O3 k (Hn _))|]. transitivity (fs_get (w_fs w1) k); [exact (O2 k (Hn _))|now apply O1]. }
  (* 5 *)
  assert (X5 : validate_checksum C binary_path checksum_path (fst (announce stage 5 w4)) = (fst (announce stage 5 w4), Ok None)).
  { apply Hval.
    - apply (read_cached (fst (announce stage 5 w4)) checksum_name sums mc); [exact (proj1 F4)|exact Pc1|exact K|].
      apply (Hrd w4 C04). apply below_name.
    - apply (read_cached (fst (announce stage 5 w4)) app_name (e_data e) (N.ldiff 438 (w_umask w3))); [exact (proj1 F4)|exact Pb1|exact B|].
      apply (Hrd w4 C04). apply below_name. }
  rewrite (step_ok stage 5 _ _ w4 _ X5). set (w5 := fst (announce stage 5 w4)).
  (* 6 *)
  set (w5' := fst (announce stage 6 w5)).
  assert (HLne : L <> []) by (intros ->; discriminate).
  assert (HLtmp : L <> [b "tmp"]) by (intros ->; now apply (Htmp old mode)).
  assert (Hr5 : resolve (w_disk w5') exe = Some L).
  { assert (He := proj1 (env_disk _ _ (proj2 (proj2 C04)))).
    apply (resolve_same (w_disk w) (w_disk w5')); [exact Hdd| | | |exact Hres].
    - change (w_disk w5') with (w_disk w4). rewrite He. reflexivity.
    - intros k Hk Hn. change (fs_get (w_fs w4) k <> None). destruct (loc_eqb k [b "tmp"]) eqn:Ek.
      + apply loc_eqb_eq in Ek. subst k. rewrite (proj1 (proj1 F4)). discriminate.
      + apply loc_eqb_neq in Ek. rewrite Hsame; [exact Hn|exact (outside_above k L Hout Hk)|exact Ek].
    - intros k Hk Hn. change (is_dir (w_fs w4) k = true). unfold is_dir in *. destruct (loc_eqb k [b "tmp"]) eqn:Ek.
      + apply loc_eqb_eq in Ek. subst k. now rewrite (proj1 (proj1 F4)).
      + apply loc_eqb_neq in Ek. rewrite Hsame; [exact Hn|exact (outside_above k L Hout Hk)|exact Ek]. }
  assert (Hold5 : fs_get (w_fs w5') L = Some (NFile old mode)) by (change (fs_get (w_fs w4) L = Some (NFile old mode)); rewrite Hsame; assumption).
  assert (Hexe5 : w_exe w5' = Some exe) by (change (w_exe w4 = Some exe); rewrite <- Hexe; apply (env_disk _ _ (proj2 (proj2 C04)))).
  assert (Hb5 : resolve (w_disk w5') binary_path = Some (app_name :: cacheL)) by exact (cache_found (w_disk w5') app_name _ _ (proj1 F4) Pb1 B).
  assert (Hne : app_name :: cacheL <> L) by (intros <-; rewrite below_name in Hout; discriminate).
  destruct (change_calm (fun f => fs_set L (NFile (e_data e) (N.ldiff 438 (w_umask w3))) (fs_del (app_name :: cacheL) f)) w5' (proj1 (proj2 C04)))
    as (w6 & S6 & C6 & Fs6 & _).
  assert (X6 : replace_binary binary_path w5' = (w6, Ok true)).
  { unfold replace_binary, bind, executable. rewrite Hexe5. unfold rename. rewrite Hb5. unfold resolve_new. rewrite Hr5, Hold5.
    change (fs_get (w_fs w5') (app_name :: cacheL)) with (fs_get (w_fs w4) (app_name :: cacheL)). rewrite B.
    apply loc_eqb_neq in Hne. rewrite Hne. exact S6. }
  rewrite (step_ok stage 6 _ _ w5 w6 (as_step_fine _ _ _ X6)).
  (* 7 *)
  destruct (remove_calm cache_dir (fst (announce stage 7 w6)) (proj1 (proj2 C6))) as (w7 & S7 & C7).
  rewrite (step_ok stage 7 _ _ w6 w7 (as_step_fine _ _ _ S7)).
  exists w7. split; [reflexivity|].
  assert (Hrc : resolve (w_disk (fst (announce stage 7 w6))) cache_dir = Some cacheL).
  { apply cache_resolves. change (d_fs (w_disk (fst (announce stage 7 w6)))) with (w_fs w6). rewrite Fs6. change (w_fs w5') with (w_fs w4).
    destruct (proj1 F4) as [Q1 Q2]. split.
    - rewrite fs_get_set_other by congruence. rewrite fs_get_del_other by discriminate. exact Q1.
    - rewrite fs_get_set_other by (intros <-; discriminate Hout). rewrite fs_get_del_other by discriminate. exact Q2. }
  destruct (removed_cache _ _ Hrc S7) as (_ & Z1 & Z2).
  change (w_fs (fst (announce stage 7 w6))) with (w_fs w6) in Z2.
  split; [|split; [exact Z1|]].
  - rewrite Z2 by exact Hout. rewrite Fs6. change (w_fs w5') with (w_fs w4). rewrite fs_get_set_same by exact HLne.
    replace (w_umask w3) with (w_umask w); [reflexivity|]. symmetry. exact (calm_umask _ _ C03).
  - intros k Hk Hkl Hkt. rewrite Z2 by exact Hk. rewrite Fs6, fs_get_set_other by exact Hkl.
    rewrite fs_get_del_other by (intros ->; rewrite below_name in Hk; discriminate). now apply Hsame.
Qed.

(** ** The last moment *)

(** The files are what the last change made them, or as at first. *)
Definition last_moment (f0 : fs) (w : world) : Prop := w_fs w = hd f0 (moments w).

Section Last.
Variable f0 : fs.
Notation J := (last_moment f0).

Lemma last_put f w : J (put_fs f w).
Proof. reflexivity. Qed.
Lemma last_change g : keeps J (change g).
Proof. intros w H. unfold change. destruct (w_faults w) as [|[n|] fl]; cbn [fst]; try apply last_put. exact H. Qed.
Lemma last_append l data : forall w, J w -> J (append_bytes l data w).
Proof.
  induction data as [|c data IH]; intros w H; cbn [append_bytes]; [exact H|]. apply IH.
  destruct (fs_get (w_fs w) l) as [[old m|]|]; [apply last_put|exact H|exact H].
Qed.
Lemma last_write l data : keeps J (write_bytes l data).
Proof. intros w H. unfold write_bytes. destruct (w_faults w) as [|[n|] fl]; cbn [fst]; now apply last_append. Qed.
Lemma last_open p perm : keeps J (open_trunc p perm).
Proof.
  intros w H. unfold open_trunc. destruct (resolve_new (w_disk w) p) as [l|]; [|exact H].
  assert (G : forall mode, J (fst (bind (change (fs_set l (NFile [] mode))) (fun ok => ret (if ok then Some l else None)) w))).
  { intros mode. apply keeps_bind; [apply last_change|intros; apply keeps_ret|exact H]. }
  destruct (fs_get (w_fs w) l) as [[c m|]|]; [apply G|exact H|apply G].
Qed.
Lemma last_save p data whole : keeps J (save_stream p data whole).
Proof.
  apply keeps_bind; [apply last_open|]. intros [l|]; [|apply keeps_ret]. apply keeps_bind; [apply last_write|intros; apply keeps_ret].
Qed.
Lemma last_http u : keeps J (http_get u).
Proof. intros w H. unfold http_get. destruct u; [exact H|]. destruct (w_net w); exact H. Qed.
Lemma last_download p u : keeps J (download p u).
Proof. apply keeps_bind; [apply last_http|]. intros [|body c]; [apply keeps_ret|apply last_save]. Qed.
Lemma last_entries es proper : keeps J (extract_entries cache_dir es proper).
Proof.
  induction es as [|e es IH]; cbn [extract_entries]; [apply keeps_ret|]. destruct (e_regular e); [|exact IH].
  apply keeps_bind; [apply last_save|]. intros [|]; [exact IH|apply keeps_ret].
Qed.
Lemma last_extract T src : keeps J (extract T src cache_dir).
Proof.
  apply keeps_bind; [intros w H; exact H|]. intros [s|]; [|apply keeps_ret]. destruct (T s) as [[es proper]|]; [apply last_entries|apply keeps_ret].
Qed.
Lemma last_make ls : keeps J (make_dirs ls).
Proof.
  induction ls as [|l ls IH]; cbn [make_dirs]; [apply keeps_ret|]. apply keeps_bind; [apply last_change|]. intros [|]; [exact IH|apply keeps_ret].
Qed.
Lemma last_mkdir p : keeps J (mkdir_all p).
Proof. intros w H. unfold mkdir_all. destruct p; [exact H|]. destruct (missing_dirs _ _ _) as [ls|]; [now apply last_make|exact H]. Qed.
Lemma last_unlink ls : keeps J (unlink_all ls).
Proof.
  induction ls as [|l ls IH]; cbn [unlink_all]; [apply keeps_ret|]. apply keeps_bind; [apply last_change|]. intros [|]; [exact IH|apply keeps_ret].
Qed.
Lemma last_remove p : keeps J (remove_all p).
Proof. intros w H. unfold remove_all. destruct (resolve _ _) as [l|]; [now apply last_unlink|exact H]. Qed.
Lemma last_rename p q : keeps J (rename p q).
Proof.
  intros w H. unfold rename. destruct (resolve _ _) as [ls|]; [|exact H]. destruct (resolve_new _ _) as [ld|]; [|exact H].
  destruct (fs_get (w_fs w) ls) as [[c m|]|]; try exact H.
  destruct (fs_get (w_fs w) ld) as [[c1 m1|]|], (loc_eqb ls ld); try exact H; now apply last_change.
Qed.
Lemma last_replace p : keeps J (replace_binary p).
Proof. apply keeps_bind; [intros w H; exact H|]. intros [e|]; [apply last_rename|apply keeps_ret]. Qed.
Lemma last_as_step m : keeps J m -> keeps J (as_step m).
Proof. intros H. apply keeps_bind; [exact H|intros; apply keeps_ret]. Qed.
Lemma last_run stage l : Forall (fun ns => keeps J (snd ns)) l -> keeps J (run_stages stage l).
Proof.
  induction 1 as [|[n s] l Hs _ IH]; cbn [run_stages]; [apply keeps_ret|].
  apply keeps_bind; [intros w H; exact H|]. intros _. apply keeps_bind; [exact Hs|]. intros [e|]; [apply keeps_ret|exact IH].
Qed.
Lemma last_fetch : keeps J fetch_info.
Proof. apply keeps_bind; [apply last_http|]. intros [|body [|]]; try apply keeps_ret. apply keeps_lift. Qed.
Lemma last_update C T stage : keeps J (update C T stage).
Proof.
  intros w H. rewrite update_stages. revert w H. change (keeps J (bind fetch_info (fun r => match r with
    | Err e => ret (Some e) | Val None => ret (Some ErrNoUpdate)
    | Val (Some info) => if negb (ui_newer info) then ret (Some ErrNoUpdate) else run_stages stage (steps C T info) end))).
  apply keeps_bind; [apply last_fetch|].
  intros [[info|]|e]; try apply keeps_ret. destruct (negb (ui_newer info)); [apply keeps_ret|]. apply last_run. unfold steps.
  repeat (apply Forall_cons; cbn [snd]; [|]); [|apply last_as_step, last_download|apply last_as_step, last_download|
    apply last_as_step, last_extract| |apply last_as_step, last_replace|apply last_as_step, last_remove|apply Forall_nil].
  - apply keeps_bind; [apply last_remove|]. intros [|]; [|apply keeps_ret]. apply last_as_step, last_mkdir.
  - intros w Hw. now rewrite validate_same.
Qed.
End Last.

Lemma tree_update C T stage w : wf_fs (w_fs w) -> w_trace w = [] -> always (env w) wf_fs (fst (update C T stage w)).
Proof.
  intros Hwf Ht. assert (H : since [] (env w) wf_fs w) by (rewrite <- Ht; now apply since_start).
  rewrite update_stages. unfold bind. assert (F := keeps_fetch [] (env w) wf_fs w H).
  destruct (fetch_info w) as [w1 [[[info|]|e]| |n]]; cbn [fst] in F; try exact F.
  destruct (negb (ui_newer info)); [exact F|]. now apply tree_stages.
Qed.

Lemma final_moment C T stage w : w_trace w = [] -> let w' := fst (update C T stage w) in w_fs w' = w_fs w \/ In (w_fs w') (moments w').
Proof.
  intros Ht w'. assert (H : last_moment (w_fs w) w') by (apply last_update; unfold last_moment, moments; now rewrite Ht).
  unfold last_moment in H. destruct (moments w') as [|f fs] eqn:E; [now left|]. right. rewrite H. now left.
Qed.
