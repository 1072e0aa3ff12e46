(** Updates that can work do work, also after others that did not (C106). *)
From Verif Require Import Base Utf8 Spec_Trim GoStrings GoStringsProof FieldsProof Json Crypto Path Fs FsProof Domain World WorldProof Updater UpdateProof Spec_Release
  Toy RepeatProof Properties_Update Properties_Check Properties_Interrupt Properties_Release.

(** ** Specification *)

(** The installed program: a file, named by a path without "..". *)
Definition plainly_installed (w : world) (L : loc) (content : bytes) (mode : N) : Prop :=
  exists exe, w_exe w = Some exe /\ ~ In (b "..") (split_slash exe) /\ resolve (w_disk w) exe = Some L /\
    fs_get (w_fs w) L = Some (NFile content mode).

(** Nothing fails: no write, /tmp is no file, and what lies in the cache can be read. *)
Definition can_work (w : world) : Prop :=
  w_faults w = [] /\ (forall c m, fs_get (w_fs w) [b "tmp"] <> Some (NFile c m)) /\
  forall k, in_cache k -> d_unreadable (w_disk w) k = false.

(** A file of the archive that can be read and does not lie in a directory; and the name it gets. *)
Definition flat_name (e : entry) (n : bytes) : Prop := e_whole e = true /\ parts (e_name e) = [n] /\ n <> b "..".

(** The archive: files without directories, none with the name of the checksum file, the last one called 1pass is [data]. *)
Definition good_archive (T : unpacker) (a data : bytes) : Prop := exists es before e after,
  T a = Some (es, true) /\
  Forall (fun e => e_regular e = true -> exists n, flat_name e n /\ n <> b "checksum.md5") es /\
  es = before ++ e :: after /\ e_regular e = true /\ parts (e_name e) = [b "1pass"] /\ e_data e = data /\
  Forall (fun e => e_regular e = true -> parts (e_name e) <> [b "1pass"]) after.

(** The server offers a newer release with both URLs, and sends the archive and a checksum of its program in full. *)
Definition good_release (C : crypto) (T : unpacker) (w : world) (data : bytes) : Prop := exists body o a sums rest,
  w_net w = NetBody body true :: NetBody a true :: NetBody sums true :: rest /\
  offers body o /\ newer (of_version o) /\ of_archive o <> [] /\ of_checksum o <> [] /\
  good_archive T a data /\ attests C sums data.

(** The update succeeded: the program is [data], and the cache is gone. *)
Definition updated (C : crypto) (T : unpacker) (stage : nat -> bytes) (w : world) (L : loc) (data : bytes) : Prop := exists w',
  update C T stage w = (w', Ok None) /\ fs_get (w_fs w') L = Some (NFile data (N.ldiff 438 (w_umask w))) /\
  (forall k, in_cache k -> fs_get (w_fs w') k = None) /\
  (forall k, ~ in_cache k -> k <> L -> k <> [b "tmp"] -> fs_get (w_fs w') k = fs_get (w_fs w) k).

(** ** C106 *)

(** With a good release and nothing that fails the update succeeds, whatever lies in the cache before: it installs the
    program of the archive, removes the cache and touches nothing else. *)
Theorem C106_good_update_works : forall C T stage w L old mode data,
  wf_fs (w_fs w) -> can_work w -> plainly_installed w L old mode -> ~ in_cache L -> good_release C T w data ->
  updated C T stage w L data.
Proof.
  intros C T stage w L old mode data Hwf (Hf & Htmp & Hread) (exe & Hexe & Hdd & Hres & Hold) Hout
    (body & o & a & sums & rest & Hnet & Hoff & Hnew & Hua & Huc & (es & before & e & after & HT & Hflat & Hes & Her & Hep & <- & Hafter) & Hatt).
  assert (Hfi : snd (fetch_info w) = Ok (Val (Some (info_of o)))).
  { apply fetch_answered. exists body. split; [unfold answer; now rewrite Hnet|now apply offers_read]. }
  assert (Hfn := fetch_net w). rewrite Hnet in Hfn. cbn [tl] in Hfn.
  assert (Hk := keeps_fetch (w_trace w) (env w) (fun f => f = w_fs w) w ltac:(now apply since_start)).
  assert (Hff : w_faults (fst (fetch_info w)) = w_faults w).
  { unfold fetch_info, bind, http_get. destruct github_releases; [reflexivity|]. rewrite Hnet. reflexivity. }
  unfold updated. rewrite update_stages. unfold bind. destruct (fetch_info w) as [w1 r1]. cbn [fst snd] in *. subst r1.
  destruct Hk as (He & Hfs & _). destruct (env_disk _ _ He) as (Hd & Hu & Hx).
  assert (Hdw : w_disk w1 = w_disk w) by (rewrite Hd, Hfs; symmetry; apply disk_eta).
  assert (Hn : ui_newer (info_of o) = true) by now apply info_newer. rewrite Hn. cbn [negb].
  destruct (stages_calm C T stage (info_of o) w1 exe L old mode a sums rest es before e after) as (w' & H1 & H2 & H3 & H4); try assumption.
  - now rewrite Hfs.
  - congruence.
  - intros c m. rewrite Hfs. apply Htmp.
  - intros k Hk. rewrite Hdw. apply Hread. now apply in_cache_below.
  - congruence.
  - now rewrite Hdw.
  - now rewrite Hfs.
  - destruct (below cacheL L) eqn:E; [|reflexivity]. elim Hout. now apply in_cache_below.
  - intros w' R1 R2. destruct (validate_checksum C binary_path checksum_path w') as [w2 r] eqn:Ev.
    destruct (C62_checksum_decides C _ _ _ _ _ _ _ R1 R2 Ev) as (-> & Hr & _). f_equal. now apply Hr.
  - exists w'. split; [exact H1|]. split; [rewrite H2, Hu; reflexivity|]. split; [intros k Hk; apply H3; now apply in_cache_below|].
    intros k Hk HkL Hkt. rewrite H4, Hfs; [reflexivity| |exact HkL|exact Hkt].
    destruct (below cacheL k) eqn:E; [|reflexivity]. elim Hk. now apply in_cache_below.
Qed.
Print Assumptions C106_good_update_works.

(** An update was stopped at any moment, or ended in any way, with any answers, faults and (tame) archive.  The next one
    on the same machine, with a good release and nothing that fails, succeeds as if it were the first. *)
Theorem C106_try_again : forall C T stage w L old mode f T2 stage2 w2 data,
  w_trace w = [] -> wf_fs (w_fs w) -> plainly_installed w L old mode -> ~ in_cache L ->
  archive_has T (fun e => stays_inside e /\ not_checksum e) w ->
  In f (moments (fst (update C T stage w))) \/ f = w_fs (fst (update C T stage w)) ->
  after_crash w f w2 -> w_exe w2 = w_exe w -> can_work w2 -> good_release C T2 w2 data ->
  updated C T2 stage2 w2 L data.
Proof.
  intros C T stage w L old mode f T2 stage2 w2 data Ht Hwf (exe & Hexe & Hdd & Hres & Hold) Hout HT Hin Hcr Hexe2 Hcan Hgood.
  assert (Hf2 : w_fs w2 = f) by (unfold w_fs; now rewrite Hcr).
  assert (Hin' : f = w_fs w \/ In f (moments (fst (update C T stage w)))).
  { destruct Hin as [Hin| ->]; [now right|]. now apply final_moment. }
  assert (Htree : wf_fs f).
  { destruct Hin' as [->|Hm]; [exact Hwf|]. assert (X := tree_update C T stage w Hwf Ht). apply always_moments in X.
    destruct X as (_ & _ & X). rewrite Forall_forall in X. now apply X. }
  assert (HL : exists content m, fs_get f L = Some (NFile content m)).
  { destruct Hin' as [->|Hm]; [eauto|].
    destruct (C50_only_verified_installed_partial C T stage w L old mode f Ht) as (c & m & Hc & _); try assumption; [|eauto].
    exists exe. auto. }
  destruct HL as (content & m & HL).
  assert (Hplace := resolve_place _ _ _ Hres).
  assert (Hsame : forall k, ~ in_cache k -> k <> L -> fs_get (w_fs w) k <> None -> fs_get f k = fs_get (w_fs w) k).
  { intros k Hk HkL Hn. destruct Hin' as [->|Hm]; [reflexivity|].
    destruct (C51_only_program_changed_partial C T stage w exe f k Ht) as [X|(_ & X & _)]; try assumption; [|congruence|congruence].
    intros a es proper Ha Hes. eapply Forall_impl; [|exact (HT a es proper Ha Hes)]. cbn beta. now intros x [X _]. }
  assert (Hb : below cacheL L = false).
  { destruct (below cacheL L) eqn:E; [|reflexivity]. elim Hout. now apply in_cache_below. }
  apply (C106_good_update_works C T2 stage2 w2 L content m data); [now rewrite Hf2|exact Hcan| |exact Hout|exact Hgood].
  exists exe. split; [congruence|]. split; [exact Hdd|]. split; [|now rewrite Hf2].
  assert (Hout' : forall k, below k L = true -> ~ in_cache k).
  { intros k Hk Hc. apply in_cache_below in Hc. rewrite (outside_above k L Hb Hk) in Hc. discriminate. }
  apply (resolve_same (w_disk w) (w_disk w2)); [exact Hdd|now rewrite Hcr| | |exact Hres]; rewrite Hcr; cbn [d_fs].
  - intros k Hk Hn. destruct (loc_eqb k L) eqn:E; [apply loc_eqb_eq in E; subst k; congruence|].
    apply loc_eqb_neq in E. rewrite (Hsame k (Hout' k Hk) E Hn). exact Hn.
  - intros k Hk Hn. destruct (loc_eqb k L) eqn:E; [apply loc_eqb_eq in E; subst k; unfold is_dir in Hn; unfold w_fs in Hold; rewrite Hold in Hn; discriminate|].
    apply loc_eqb_neq in E. unfold is_dir in *. rewrite (Hsame k (Hout' k Hk) E); [exact Hn|].
    unfold w_fs. destruct (fs_get (d_fs (w_disk w)) k); [discriminate|discriminate Hn].
Qed.
Print Assumptions C106_try_again.

(** But a release whose archive keeps a file in a directory can never be installed: no directory is made for it. *)
Definition no_dirs (f : fs) : Prop := forall k, below cacheL k = true -> k <> cacheL -> fs_get f k <> Some NDir.

Lemma no_dirs_set f l n : no_dirs f -> (n <> NDir \/ l = cacheL \/ below cacheL l = false) -> no_dirs (fs_set l n f).
Proof.
  intros H Hl k Hk Hne. destruct (loc_eqb k l) eqn:E.
  - apply loc_eqb_eq in E. subst k. rewrite fs_get_set_same by now apply below_nonempty. intros [= X]. destruct Hl as [Hl|[Hl|Hl]]; congruence.
  - apply loc_eqb_neq in E. rewrite fs_get_set_other by exact E. now apply H.
Qed.

Lemma no_dirs_del f l : no_dirs f -> no_dirs (fs_del l f).
Proof.
  intros H k Hk Hne. destruct (loc_eqb k l) eqn:E.
  - apply loc_eqb_eq in E. subst k. rewrite fs_get_del_same by now apply below_nonempty. discriminate.
  - apply loc_eqb_neq in E. rewrite fs_get_del_other by exact E. now apply H.
Qed.

Lemma entries_nested B E e n1 n2 ns es proper : e_regular e = true -> ~ In dotdot (split_slash (e_name e)) -> parts (e_name e) = n1 :: n2 :: ns ->
  In e es -> forall w w', since B E wf_fs w -> since B E no_dirs w -> extract_entries cache_dir es proper w <> (w', Ok true).
Proof.
  intros Her Hdd Hp. induction es as [|x es IH]; intros Hin w w' Hw Hn H; [destruct Hin|]. cbn [extract_entries] in H.
  assert (Hsave : keeps (since B E no_dirs) (save_stream (join_path [cache_dir; e_name x]) (e_data x) (e_whole x))).
  { apply keeps_save.
    - intros f c m c' Hf _. apply no_dirs_set; [exact Hf|left; discriminate].
    - intros f Hf _. apply no_dirs_set; [exact Hf|left; discriminate]. }
  destruct Hin as [->|Hin].
  - rewrite Her in H. apply bind_ok in H. destruct H as (w1 & ok & Hs & H). destruct ok; [|discriminate].
    assert (T1 := tree_save B E (join_path [cache_dir; e_name e]) (e_data e) (e_whole e) w Hw). rewrite Hs in T1. cbn [fst] in T1.
    assert (N1 := Hsave w Hn). rewrite Hs in N1. cbn [fst] in N1.
    apply save_stream_ok in Hs. destruct Hs as [_ (l & Hl & _ & _ & _ & Hg & _)].
    apply resolve_new_place in Hl. rewrite place_entry, lexical_parts in Hl by exact Hdd. fold (parts (e_name e)) in Hl. rewrite Hp in Hl.
    destruct (rev (n1 :: n2 :: ns)) as [|z [|y ys]] eqn:Er.
    + apply (f_equal (@length bytes)) in Er. rewrite rev_length in Er. discriminate.
    + apply (f_equal (@length bytes)) in Er. rewrite rev_length in Er. discriminate.
    + subst l. cbn [app] in Hg. assert (Hdir : is_dir (w_fs w1) (y :: ys ++ cacheL) = true) by (apply (proj1 (proj2 T1) z); congruence).
      unfold is_dir in Hdir. destruct (fs_get (w_fs w1) (y :: ys ++ cacheL)) as [[|]|] eqn:Ed; try discriminate.
      refine (proj1 (proj2 N1) (y :: ys ++ cacheL) _ _ Ed); [apply below_spec; exists (y :: ys); reflexivity|].
      intros X. apply (f_equal (@length bytes)) in X. cbn [length] in X. rewrite app_length in X. cbn in X. lia.
  - destruct (e_regular x); [|exact (IH Hin w w' Hw Hn H)].
    apply bind_ok in H. destruct H as (w1 & ok & Hs & H). destruct ok; [|discriminate].
    assert (T1 := tree_save B E (join_path [cache_dir; e_name x]) (e_data x) (e_whole x) w Hw). rewrite Hs in T1.
    assert (N1 := Hsave w Hn). rewrite Hs in N1. exact (IH Hin w1 w' T1 N1 H).
Qed.

Theorem C106_directories_refuted : forall C T stage w a es proper e n1 n2 ns,
  wf_fs (w_fs w) -> answer w 1 a -> T a = Some (es, proper) ->
  In e es -> e_regular e = true -> ~ In (b "..") (split_slash (e_name e)) -> parts (e_name e) = n1 :: n2 :: ns ->
  snd (update C T stage w) <> Ok None.
Proof.
  intros C T stage w a es proper e n1 n2 ns Hwf Ha HT Hin Her Hdd Hp Hu.
  destruct (update_ways C T stage w) as [[_ Hx]|(info & _ & _ & Hx)]; [now apply Hx|].
  rewrite Hx in Hu. clear Hx. apply answer_fetch in Ha.
  assert (Hk := keeps_fetch (w_trace w) (env w) wf_fs w ltac:(now apply since_start)).
  set (w0 := fst (fetch_info w)) in *. destruct (run_stages stage (steps C T info) w0) as [w' r] eqn:Hr. cbn [snd] in Hu. subst r.
  change (steps C T info) with (firstn 3 (steps C T info) ++ skipn 3 (steps C T info)) in Hr. rewrite run_stages_app in Hr.
  destruct (run_stages stage (firstn 3 (steps C T info)) w0) as [w3 [[x|]| |n]] eqn:H3; try discriminate.
  destruct (downloads_done stage C T info _ _ H3) as (a' & cs & rest & ma & mc & Hn & Harc & _).
  assert (a' = a) by (rewrite Hn in Ha; cbn in Ha; congruence). subst a'.
  unfold steps in Hr. cbn [skipn] in Hr. apply run_one in Hr. destruct Hr as (w4 & H4 & _). apply as_step_ok in H4.
  (* the tree and the lack of directories up to here *)
  assert (Tree : since (w_trace w) (env w) wf_fs w3).
  { assert (X : keeps (since (w_trace w) (env w) wf_fs) (run_stages stage (firstn 3 (steps C T info)))).
    { apply keeps_run. unfold steps. cbn [firstn]. repeat (apply Forall_cons; cbn [snd]; [|]);
        [apply tree_step1|apply keeps_as_step, tree_download|apply keeps_as_step, tree_download|apply Forall_nil]. }
    specialize (X w0 Hk). now rewrite H3 in X. }
  unfold steps in H3. cbn [firstn] in H3. apply run_one in H3. destruct H3 as (w1 & H1 & H3).
  assert (N1 : no_dirs (w_fs w1) /\ env w1 = env w).
  { unfold step1 in H1. apply bind_ok in H1. destruct H1 as (v & ok & Hv & H1). destruct ok; [|discriminate]. apply as_step_ok in H1.
    assert (Hwf0 : wf_fs (w_fs (fst (announce stage 1 w0)))) by exact (proj1 (proj2 Hk)).
    destruct (removed_all _ _ Hwf0 Hv) as [Hgone _].
    assert (Y := keeps_mkdir_cache (w_trace v) (env v) no_dirs ltac:(intros f Hf; apply no_dirs_set; auto)
      ltac:(intros f Hf _; apply no_dirs_set; auto) v).
    rewrite H1 in Y. cbn [fst] in Y. destruct Y as (Y1 & Y2 & _).
    { apply since_start; [reflexivity|]. intros k Hkb _. rewrite Hgone by exact Hkb. discriminate. }
    split; [exact Y2|]. rewrite Y1.
    assert (Z := keeps_remove_cache (w_trace w) (env w) (fun _ => True) ltac:(auto) (fst (announce stage 1 w0))).
    rewrite Hv in Z. apply Z. apply keeps_announce. apply (since_weaken (w_trace w) (env w) wf_fs); [auto|exact Hk]. }
  destruct N1 as [N1 E1].
  assert (N3 : since (w_trace w1) (env w) no_dirs w3).
  { assert (X : keeps (since (w_trace w1) (env w) no_dirs) (run_stages stage [(2, as_step (download archive_path (ui_archive info))); (3, as_step (download checksum_path (ui_checksum info)))])).
    { apply keeps_run. repeat (apply Forall_cons; cbn [snd]; [|]); [| |apply Forall_nil];
        apply keeps_as_step, keeps_download; intros; try (apply no_dirs_set; [assumption|left; discriminate]);
        [rewrite place_archive|rewrite place_checksum]; reflexivity. }
    specialize (X w1). rewrite H3 in X. apply X. apply since_start; [exact E1|exact N1]. }
  unfold extract, bind, io_read in H4. destruct (read_file (w_disk (fst (announce stage 4 w3))) archive_path) as [s|] eqn:Es; [|discriminate].
  assert (s = a).
  { apply read_place in Es. destruct Es as (m' & _ & Es). rewrite place_archive in Es. change (fs_get (w_fs w3) (archive_name :: cacheL) = Some (NFile s m')) in Es. congruence. }
  subst s. rewrite HT in H4.
  refine (entries_nested (w_trace w3) (env w) e n1 n2 ns es proper Her Hdd Hp Hin (fst (announce stage 4 w3)) w4 _ _ H4); apply keeps_announce; apply since_start.
  - exact (proj1 Tree).
  - exact (proj1 (proj2 Tree)).
  - exact (proj1 Tree).
  - exact (proj1 (proj2 N3)).
Qed.
Print Assumptions C106_directories_refuted.

(** The program was stopped in the middle of the first download; there are files of older runs as well. *)
Definition stopped_in : fs :=
  [([b "bin"], NDir); (exeL, NFile (b "old") 493); ([b "tmp"], NDir); ([b "1pass"; b "tmp"], NDir);
   ([b "1pass"; b "1pass"; b "tmp"], NDir); ([b "x"; b "1pass"; b "1pass"; b "tmp"], NFile (b "left over") 256)].
Definition good_world (f : fs) : world :=
  MkWorld (MkDisk f [] (fun _ => false)) 18 (Some (b "/bin/1pass")) [] (served (b "tgz") demo_sum) [] [] [] [].

Lemma good_world_release f : good_release toy_crypto demo_tar (good_world f) (b "new").
Proof.
  exists demo_release, (MkOffer (b "1.4.0") (b "n") (b "u:a") (b "u:c")), (b "tgz"), demo_sum, []. split; [reflexivity|].
  split; [apply (proj1 (read_offers demo_release (MkInfo (b "u:a") (b "n") (b "u:c") true (b "1.4.0")) ) ltac:(vm_compute; reflexivity))|].
  split; [apply newer_number; vm_compute; reflexivity|]. split; [discriminate|]. split; [discriminate|]. split.
  - eexists. exists [MkEntry (b "doc") false [] true]. eexists. exists []. split; [unfold demo_tar, tar; rewrite bytes_eqb_refl; reflexivity|].
    split; [|split; [reflexivity|split; [reflexivity|split; [reflexivity|split; [reflexivity|constructor]]]]].
    constructor; [discriminate|]. constructor; [|constructor]. intros _. exists (b "1pass"). repeat split; discriminate.
  - apply fields_first_iff. eexists. vm_compute. reflexivity.
Qed.

Lemma stopped_tree : wf_fs stopped_in.
Proof.
  intros e l H. unfold stopped_in in *. destruct (fs_get _ (e :: l)) as [n|] eqn:Eg; [|congruence]. apply fs_get_in in Eg; [|discriminate].
  cbn [map fst] in Eg. repeat (destruct Eg as [Eg|Eg]; [injection Eg as <- <-; reflexivity|]). destruct Eg.
Qed.

Example C106_example :
  wf_fs stopped_in /\ can_work (good_world stopped_in) /\ plainly_installed (good_world stopped_in) exeL (b "old") 493 /\ ~ in_cache exeL /\
  good_release toy_crypto demo_tar (good_world stopped_in) (b "new").
Proof.
  split; [exact stopped_tree|]. split; [split; [reflexivity|]; split; [intros c m; vm_compute; discriminate|reflexivity]|].
  split; [exists (b "/bin/1pass"); split; [reflexivity|]; split; [intros H; vm_compute in H; intuition discriminate|]; split; reflexivity|].
  split; [intros H; apply in_cache_below in H; discriminate|apply good_world_release].
Qed.

(** A moment of a run that was stopped, and then a good one. *)
Example C106_again_example : exists f,
  In f (moments (fst (update toy_crypto demo_tar (fun _ => []) (good_world stopped_in)))) /\
  fs_get f [b "1pass.tar.gz"; b "1pass"; b "tmp"] = Some (NFile (b "tg") 420) /\
  after_crash (good_world stopped_in) f (good_world f) /\ can_work (good_world f).
Proof.
  set (ms := moments (fst (update toy_crypto demo_tar (fun _ => []) (good_world stopped_in)))).
  assert (H : exists i, nth_error ms i <> None /\ match nth_error ms i with Some f => fs_get f [b "1pass.tar.gz"; b "1pass"; b "tmp"] = Some (NFile (b "tg") 420) /\
    (fs_get f [b "tmp"] = Some NDir) | None => False end).
  { exists (length ms - 7). unfold ms. vm_compute. split; [discriminate|]. split; reflexivity. }
  clearbody ms. destruct H as (i & _ & H). destruct (nth_error ms i) as [f|] eqn:E; [|destruct H]. destruct H as [H1 H2].
  exists f. split; [exact (nth_error_In ms i E)|]. split; [exact H1|]. split; [reflexivity|].
  split; [reflexivity|]. split; [intros c m; cbn [good_world w_fs w_disk d_fs]; congruence|reflexivity].
Qed.

Example C106_directories_example : parts (b "dist/1pass") = [b "dist"; b "1pass"] /\ answer (good_world stopped_in) 1 (b "tgz").
Proof. split; reflexivity. Qed.
