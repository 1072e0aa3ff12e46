(** Properties of updates (C50-C54, C56-C60, C62).  Networks, archives, crash points, faults,
    clocks and files are arbitrary. *)
From Verif Require Import Base Utf8 Spec_Trim GoStrings GoStringsProof FieldsProof Json Crypto Path Fs FsProof Domain DomainProof
  Session World WorldProof Config Updater UpdateProof Float64 RoundProof ThrottleProof Toy Spec_Release.

(** ** Specification *)

(** A place inside the cache directory /tmp/1pass (locations are written innermost first). *)
Definition in_cache (k : loc) : Prop := exists x, k = x ++ [b "1pass"; b "tmp"].

(** The installed program: a file, and where it lies. *)
Definition installed (w : world) (L : loc) (content : bytes) (mode : N) : Prop :=
  exists exe, w_exe w = Some exe /\ resolve (w_disk w) exe = Some L /\
    fs_get (w_fs w) L = Some (NFile content mode).

(** The text of a checksum file attests the data. *)
Definition attests (C : crypto) (text data : bytes) : Prop := first_word text (hex_encode (md5 C data)).

(** No name of a file in the archive climbs out of the directory. *)
Definition stays_inside (e : entry) : Prop := e_regular e = true -> ~ In dotdot (split_slash (e_name e)).
(** No file of the archive takes the place of the checksum file. *)
Definition not_checksum (e : entry) : Prop := e_regular e = true -> parts (e_name e) <> [b "checksum.md5"].

(** The archive the server sends has only such entries. *)
Definition archive_has (T : unpacker) (P : entry -> Prop) (w : world) : Prop :=
  forall a es proper, answer w 1 a -> T a = Some (es, proper) -> Forall P es.

(** ** Lemmas *)

Lemma in_cache_below k : in_cache k <-> below cacheL k = true.
Proof. symmetry. apply below_spec. Qed.

Lemma fetch_net w : w_net (fst (fetch_info w)) = tl (w_net w).
Proof.
  unfold fetch_info, bind, http_get. change github_releases with (b "https://api.github.com/repos/mashmb/1pass/releases").
  destruct (b "https://api.github.com/repos/mashmb/1pass/releases") as [|u0 us0] eqn:E; [discriminate|].
  destruct (w_net w) as [|[|body [|]] rest] eqn:En; cbn; try rewrite En; reflexivity.
Qed.

Lemma answer_fetch w n body : answer w (S n) body <-> nth_error (w_net (fst (fetch_info w))) n = Some (NetBody body true).
Proof.
  rewrite fetch_net. unfold answer. destruct (w_net w); [|reflexivity]. cbn. destruct n; split; discriminate.
Qed.

Lemma read_place D p s : read_file D p = Some s ->
  exists m, resolve D p = Some (place (d_cwd D) p) /\ fs_get (d_fs D) (place (d_cwd D) p) = Some (NFile s m).
Proof.
  unfold read_file. destruct (resolve D p) as [l|] eqn:Er; [|discriminate].
  assert (Hl := Er). apply resolve_place in Hl. subst l.
  destruct (fs_get (d_fs D) (place (d_cwd D) p)) as [[c m|]|]; try discriminate.
  destruct (d_unreadable D _); [discriminate|]. intros [= <-]. exists m. auto.
Qed.

(** The way of an update up to some stage. *)
Lemma update_ways C T stage w :
  (fst (update C T stage w) = fst (fetch_info w) /\ snd (update C T stage w) <> Ok None) \/
  exists info, snd (fetch_info w) = Ok (Val (Some info)) /\ ui_newer info = true /\
    update C T stage w = run_stages stage (steps C T info) (fst (fetch_info w)).
Proof.
  rewrite update_stages. unfold bind. destruct (fetch_info w) as [w0 [[[info|]|e]| |n]]; cbn [fst snd].
  - destruct (ui_newer info) eqn:En; cbn [negb]; [right; exists info; auto|left; split; [reflexivity|discriminate]].
  - left. split; [reflexivity|discriminate].
  - left. split; [reflexivity|discriminate].
  - left. split; [reflexivity|discriminate].
  - left. split; [reflexivity|discriminate].
Qed.

Definition first3 C T info := firstn 3 (steps C T info).
Definition last4 C T info := skipn 3 (steps C T info).

Section Ways.
Variable B : list ev.
Variable E : loc * (loc -> bool) * N * option bytes.
Variable I : fs -> Prop.
Hypothesis I_set : forall f l c m, below cacheL l = true -> I f -> I (fs_set l (NFile c m) f).
Hypothesis I_del : forall f l, below cacheL l = true -> I f -> I (fs_del l f).
Hypothesis I_dir : forall f, I f -> I (fs_set cacheL NDir f).
Hypothesis I_tmp : forall f, I f -> fs_get f [b "tmp"] = None -> I (fs_set [b "tmp"] NDir f).
Notation J := (since B E I).

Lemma keeps_first3 stage C T info : keeps J (run_stages stage (first3 C T info)).
Proof.
  apply keeps_run. unfold first3, steps. cbn [firstn].
  apply Forall_cons; [|apply Forall_cons; [|apply Forall_cons; [|apply Forall_nil]]]; cbn [snd].
  - now apply keeps_step1.
  - apply keeps_as_step. apply keeps_download; [exact I_set|]. rewrite place_archive. reflexivity.
  - apply keeps_as_step. apply keeps_download; [exact I_set|]. rewrite place_checksum. reflexivity.
Qed.

Definition entry_fine (e : entry) : Prop := e_regular e = true ->
  may_write I (lexical cacheL (split_slash (e_name e))) /\
  may_create I (lexical cacheL (split_slash (e_name e))) (N.ldiff 438 (snd (fst E))).

Lemma keeps_stage4 T w a m :
  J w -> fs_get (w_fs w) (archive_name :: cacheL) = Some (NFile a m) ->
  (forall es proper, T a = Some (es, proper) -> Forall entry_fine es) ->
  J (fst (as_step (extract T archive_path cache_dir) w)).
Proof.
  intros Hw Ha HT. unfold as_step, bind at 1, extract, bind at 1, io_read.
  destruct (read_file (w_disk w) archive_path) as [s|] eqn:Er; [|exact Hw].
  assert (s = a).
  { apply read_place in Er. destruct Er as (m' & _ & Er). rewrite place_archive in Er. unfold w_fs in Ha. congruence. }
  subst s. destruct (T a) as [[es proper]|] eqn:Et; [|exact Hw].
  assert (Hk := keeps_entries B E I es proper (HT _ _ eq_refl) w Hw).
  destruct (extract_entries cache_dir es proper w) as [w1 [x| |n]]; exact Hk.
Qed.

(** Up to the validation. *)
Lemma pre_keeps stage C T info w :
  J w ->
  (forall a es proper, nth_error (w_net w) 0 = Some (NetBody a true) -> T a = Some (es, proper) -> Forall entry_fine es) ->
  J (fst (run_stages stage (firstn 5 (steps C T info)) w)).
Proof.
  intros Hw HT.
  change (firstn 5 (steps C T info)) with (first3 C T info ++ (4, as_step (extract T archive_path cache_dir)) ::
    [(5, validate_checksum C binary_path checksum_path)]).
  destruct (run_stages_reach stage 4 (as_step (extract T archive_path cache_dir)) (first3 C T info)
    [(5, validate_checksum C binary_path checksum_path)] w) as [(e & H1 & _)|(w3 & H1 & H2)].
  - assert (Hk := keeps_first3 stage C T info w Hw). rewrite H1 in Hk. exact Hk.
  - rewrite H2. assert (Hk := keeps_first3 stage C T info w Hw). rewrite H1 in Hk. cbn [fst] in Hk.
    destruct (downloads_done stage C T info _ _ H1) as (a & c & rest & ma & mc & Hn & Ha & _).
    cbn [run_stages]. unfold bind at 1. cbn [announce].
    assert (Hw4 : J (fst (announce stage 4 w3))) by (apply keeps_announce; exact Hk).
    unfold announce in *. cbn [fst] in Hw4. set (w4 := add_event _ (add_event _ w3)) in *.
    assert (H4 := keeps_stage4 T w4 a ma Hw4 Ha).
    assert (H4' := H4 ltac:(intros es proper; apply HT; rewrite Hn; reflexivity)). clear H4.
    unfold bind at 1. destruct (as_step _ w4) as [w5 [[e|]| |n]]; try exact H4'. cbn [fst] in H4'.
    unfold bind. assert (H5 : J (fst (announce stage 5 w5))) by (apply keeps_announce; exact H4').
    unfold announce in *. cbn [fst] in H5. set (w6 := add_event _ (add_event _ w5)) in *.
    assert (Hv := validate_same C binary_path checksum_path w6).
    destruct (validate_checksum C binary_path checksum_path w6) as [w7 [[e|]| |n]]; cbn [fst] in *; subst w7; exact H5.
Qed.
End Ways.

Lemma entry_fine_inside E (I : fs -> Prop) e :
  (forall f l c m, below cacheL l = true -> I f -> I (fs_set l (NFile c m) f)) ->
  stays_inside e -> entry_fine E I e.
Proof.
  intros Hs He Hr. assert (Hb : below cacheL (lexical cacheL (split_slash (e_name e))) = true).
  { apply lexical_below; [now apply He|apply below_refl]. }
  split.
  - intros f c m c' HI _. now apply Hs.
  - intros f HI _. now apply Hs.
Qed.

Lemma outside_refl f : outside_same f f.
Proof. intros k _. now left. Qed.

Lemma outside_dir f0 f : outside_same f0 f -> outside_same f0 (fs_set cacheL NDir f).
Proof. apply outside_set. reflexivity. Qed.

Lemma outside_tmp f0 f : outside_same f0 f -> fs_get f [b "tmp"] = None -> outside_same f0 (fs_set [b "tmp"] NDir f).
Proof.
  intros H Hn k Hk. destruct (loc_eqb k [b "tmp"]) eqn:Ek.
  - apply loc_eqb_eq in Ek. subst k. right. split; [reflexivity|]. split.
    + destruct (H _ Hk) as [Hg|(_ & Hg & _)]; congruence.
    + now apply fs_get_set_same.
  - apply loc_eqb_neq in Ek. rewrite fs_get_set_other by exact Ek. now apply H.
Qed.

Lemma always_nil E (I : fs -> Prop) w : w_trace w = [] -> env w = E -> I (w_fs w) -> always E I w.
Proof. intros Ht He Hi. rewrite <- Ht. now apply since_start. Qed.

(** Everything up to the validation stays inside the cache. *)
Lemma outside_pre C T stage info w :
  w_trace w = [] -> archive_has T stays_inside w ->
  always (env w) (outside_same (w_fs w)) (fst (run_stages stage (firstn 5 (steps C T info)) (fst (fetch_info w)))).
Proof.
  intros Ht HT.
  apply pre_keeps.
  - intros f l c m. apply outside_set.
  - intros f l. apply outside_del.
  - apply outside_dir.
  - apply outside_tmp.
  - apply keeps_fetch. apply always_nil; [exact Ht|reflexivity|apply outside_refl].
  - intros a es proper Ha Hes. apply (HT a) in Hes; [|now apply answer_fetch].
    eapply Forall_impl; [|exact Hes]. intros e. apply entry_fine_inside. intros f l c m. apply outside_set.
Qed.

Lemma steps_split C T info :
  steps C T info = firstn 5 (steps C T info) ++ (6, as_step (replace_binary binary_path)) :: [(7, as_step (remove_all cache_dir))].
Proof. reflexivity. Qed.

(** Files outside [k] are left alone by an extraction that succeeds. *)
Lemma entries_ok k proper es : forall w w',
  extract_entries cache_dir es proper w = (w', Ok true) ->
  Forall (fun e => e_regular e = true -> lexical cacheL (split_slash (e_name e)) <> k) es ->
  fs_get (w_fs w') k = fs_get (w_fs w) k.
Proof.
  induction es as [|e es IH]; intros w w' H Hes; cbn [extract_entries] in H.
  - unfold ret in H. congruence.
  - inversion Hes as [|? ? He Hes' X1]; subst. destruct (e_regular e); [|now apply IH].
    apply bind_ok in H. destruct H as (w1 & ok & Hs & H). destruct ok; [|discriminate].
    rewrite (IH w1 w' H Hes'). apply save_stream_ok in Hs. destruct Hs as [_ (l & Hl & _ & _ & _ & _ & Ho & _)].
    apply resolve_new_place in Hl. rewrite place_entry in Hl. apply Ho. rewrite Hl. intros X. now apply He.
Qed.

(** The validation succeeded. *)
Lemma validate_ok C x y w w' : validate_checksum C x y w = (w', Ok None) ->
  exists text data, w' = w /\ read_file (w_disk w) y = Some text /\ read_file (w_disk w) x = Some data /\
    attests C text data.
Proof.
  unfold validate_checksum, bind, io_read. destruct (read_file (w_disk w) y) as [text|]; [|discriminate].
  destruct (read_file (w_disk w) x) as [data|]; [|discriminate].
  rewrite fields_trim. destruct (fields text) as [|wd l] eqn:Ef; [discriminate|].
  unfold ret. destruct (bytes_eqb wd (hex_encode (md5 C data))) eqn:Eb; [|discriminate].
  apply bytes_eqb_eq in Eb. intros [= <-]. exists text, data. repeat split.
  unfold attests. rewrite <- Eb. apply fields_first_iff. eauto.
Qed.

(** The state in which a validated program is about to be installed. *)
Lemma before_install C T stage info w w5 :
  run_stages stage (firstn 5 (steps C T info)) w = (w5, Ok None) ->
  exists a c rest text data ma, w_net w = NetBody a true :: NetBody c true :: rest /\
    read_file (w_disk w5) checksum_path = Some text /\ read_file (w_disk w5) binary_path = Some data /\
    attests C text data /\
    (forall es proper, T a = Some (es, proper) -> Forall (fun e => stays_inside e /\ not_checksum e) es -> text = c) /\
    fs_get (w_fs w5) (app_name :: cacheL) = Some (NFile data ma).
Proof.
  intros H.
  change (firstn 5 (steps C T info)) with (first3 C T info ++
    [(4, as_step (extract T archive_path cache_dir)); (5, validate_checksum C binary_path checksum_path)]) in H.
  rewrite run_stages_app in H.
  destruct (run_stages stage (first3 C T info) w) as [w3 [[e|]| |n]] eqn:H3; try discriminate.
  destruct (downloads_done stage C T info _ _ H3) as (a & c & rest & ma & mc & Hn & Ha & Hc).
  apply run_one in H. destruct H as (w4 & H4 & H). apply run_one in H. destruct H as (w5' & H5 & H).
  cbn [run_stages] in H. assert (w5' = w5) by (unfold ret in H; congruence). subst w5'. clear H.
  apply validate_ok in H5. destruct H5 as (text & data & -> & Ht & Hd & Hv).
  exists a, c, rest, text, data. apply read_place in Hd as Hd'. destruct Hd' as (mb & _ & Hb). rewrite place_binary in Hb.
  exists mb. split; [exact Hn|]. split; [exact Ht|]. split; [exact Hd|]. split; [exact Hv|]. split; [|exact Hb].
  intros es proper Hes Hsafe. apply read_place in Ht. destruct Ht as (mt & _ & Ht). rewrite place_checksum in Ht.
  apply as_step_ok in H4. unfold extract in H4. apply bind_ok in H4. destruct H4 as (w4' & o & Hr & H4).
  unfold io_read in Hr. assert (w4' = fst (announce stage 4 w3)) by congruence. subst w4'.
  assert (Hro : read_file (w_disk w3) archive_path = o) by (change (w_disk w3) with (w_disk (fst (announce stage 4 w3))); congruence).
  destruct o as [s|]; [|discriminate].
  assert (s = a).
  { apply read_place in Hro. destruct Hro as (m' & _ & Hro). rewrite place_archive in Hro. unfold w_fs in Ha. congruence. }
  subst s. rewrite Hes in H4.
  assert (Hk := entries_ok (checksum_name :: cacheL) proper es _ _ H4).
  rewrite Forall_forall in Hsafe.
  assert (Hk' : fs_get (w_fs w4) (checksum_name :: cacheL) = fs_get (w_fs w3) (checksum_name :: cacheL)).
  { apply Hk. apply Forall_forall. intros e He Hreg. destruct (Hsafe e He) as [Hs1 Hs2].
    rewrite lexical_parts by now apply Hs1. intros Heq.
    apply (Hs2 Hreg). change (checksum_name :: cacheL) with ([checksum_name] ++ cacheL) in Heq.
    apply app_inv_tail in Heq. apply (f_equal (@rev bytes)) in Heq. rewrite rev_involutive in Heq. exact Heq. }
  change (w_disk (fst (announce stage 5 w4))) with (w_disk w4) in Ht. unfold w_fs in *. congruence.
Qed.

(** ** C50 *)

(** With an archive that stays inside the cache and brings no checksum file of its own: at
    every moment of an update the installed program is the old one, or one that the
    checksum file sent by the server attests. *)
Theorem C50_only_verified_installed_partial : forall C T stage w L old mode f,
  w_trace w = [] -> installed w L old mode -> ~ in_cache L ->
  archive_has T (fun e => stays_inside e /\ not_checksum e) w ->
  In f (moments (fst (update C T stage w))) ->
  exists content m, fs_get f L = Some (NFile content m) /\
    ((content = old /\ m = mode) \/ exists c, answer w 2 c /\ attests C c content).
Proof.
  intros C T stage w L old mode f Ht (exe & Hexe & Hres & Hold) Hout HT Hf.
  assert (Hb : below cacheL L = false).
  { destruct (below cacheL L) eqn:Eb; [|reflexivity]. elim Hout. now apply in_cache_below. }
  assert (HT1 : archive_has T stays_inside w).
  { intros a es proper Ha Hes. eapply Forall_impl; [|exact (HT a es proper Ha Hes)]. intros e He. apply He. }
  set (I := fun f => exists content m, fs_get f L = Some (NFile content m) /\
    ((content = old /\ m = mode) \/ exists c, answer w 2 c /\ attests C c content)).
  assert (Hsame : forall f, outside_same (w_fs w) f -> I f).
  { intros g Hg. exists old, mode. split; [|now left]. destruct (Hg L Hb) as [->|(_ & Hn & _)]; [exact Hold|congruence]. }
  assert (G : always (env w) I (fst (update C T stage w))).
  2:{ apply always_moments in G. destruct G as (_ & _ & G). rewrite Forall_forall in G. now apply G. }
  destruct (update_ways C T stage w) as [[-> _]|(info & _ & _ & ->)].
  - apply (since_weaken _ _ (outside_same (w_fs w))); [exact Hsame|].
    apply keeps_fetch. apply always_nil; [exact Ht|reflexivity|apply outside_refl].
  - rewrite steps_split.
    assert (Hpre := outside_pre C T stage info w Ht HT1).
    destruct (run_stages_reach stage 6 (as_step (replace_binary binary_path)) (firstn 5 (steps C T info))
      [(7, as_step (remove_all cache_dir))] (fst (fetch_info w))) as [(e & H1 & _)|(w5 & H1 & H2)].
    + rewrite H1 in Hpre. cbn [fst] in Hpre. now apply (since_weaken _ _ (outside_same (w_fs w))).
    + rewrite H2, H1 in *. cbn [fst] in Hpre. clear H2.
      destruct (before_install _ _ _ _ _ _ H1) as (a & c & rest & text & data & mb & Hn & _ & Hd & Hv & Htext & Hbin).
      assert (Ha : answer w 1 a) by (apply answer_fetch; rewrite Hn; reflexivity).
      assert (Hc : answer w 2 c) by (apply answer_fetch; rewrite Hn; reflexivity).
      assert (Hk5 : always (env w) I w5) by (now apply (since_weaken _ _ (outside_same (w_fs w)))).
      assert (Hdel : forall k f, below cacheL k = true -> I f -> I (fs_del k f)).
      { intros k g Hk (ct & m & Hg & Hor). exists ct, m. split; [|exact Hor]. rewrite fs_get_del_other; [exact Hg|congruence]. }
      cbn [run_stages]. unfold bind at 1.
      assert (Hk6 : always (env w) I (fst (announce stage 6 w5))) by (apply keeps_announce; exact Hk5).
      unfold announce at 1. unfold announce in Hk6. cbn [fst] in Hk6. set (w6 := add_event _ (add_event _ w5)) in *.
      assert (Hrep : always (env w) I (fst (as_step (replace_binary binary_path) w6))).
      { unfold as_step, bind at 1, replace_binary, bind at 1, executable.
        assert (Hexe6 : w_exe w6 = Some exe).
        { destruct Hk6 as (He & _). unfold env in He. congruence. }
        rewrite Hexe6.
        assert (Hr : always (env w) I (fst (rename binary_path exe w6))).
        { unfold rename. destruct (resolve (w_disk w6) binary_path) as [ls|] eqn:Es; [|exact Hk6].
          destruct (resolve_new (w_disk w6) exe) as [ld|] eqn:Ed; [|exact Hk6].
          apply resolve_place in Es. rewrite place_binary in Es. subst ls.
          apply resolve_new_place in Ed.
          assert (ld = L).
          { destruct Hk6 as (He & _). unfold env in He. assert (Hcwd : d_cwd (w_disk w6) = d_cwd (w_disk w)) by congruence.
            rewrite Ed, Hcwd. apply resolve_place in Hres. congruence. }
          clear Ed. subst ld.
          assert (Hch : forall c0 m0, fs_get (w_fs w6) (app_name :: cacheL) = Some (NFile c0 m0) ->
            always (env w) I (fst (change (fun f => fs_set L (NFile c0 m0) (fs_del (app_name :: cacheL) f)) w6))).
          { intros c0 m0 Hg0. assert (c0 = data) by (change (w_fs w6) with (w_fs w5) in Hg0; congruence). subst c0.
            apply keeps_change; [|exact Hk6]. intros g Hg.
            exists data, m0. split.
            - apply fs_get_set_same. intros ->. unfold is_dir, fs_get in Hold. discriminate Hold.
            - right. exists c. split; [exact Hc|].
              destruct (T a) as [[es proper]|] eqn:Et.
              + rewrite <- (Htext es proper eq_refl (HT a es proper Ha Et)). exact Hv.
              + exfalso. clear - H1 Et Hn.
                change (firstn 5 (steps C T info)) with (first3 C T info ++
                  [(4, as_step (extract T archive_path cache_dir)); (5, validate_checksum C binary_path checksum_path)]) in H1.
                rewrite run_stages_app in H1.
                destruct (run_stages stage (first3 C T info) (fst (fetch_info w))) as [w3 [[e|]| |n]] eqn:H3; try discriminate.
                destruct (downloads_done stage C T info _ _ H3) as (a' & c' & rest' & ma & mc & Hn' & Ha' & Hc').
                assert (a' = a) by congruence. subst a'.
                apply run_one in H1. destruct H1 as (w4 & H4 & _). apply as_step_ok in H4.
                unfold extract in H4. apply bind_ok in H4. destruct H4 as (w4' & o & Hr & H4).
                unfold io_read in Hr. assert (Hro : read_file (w_disk w3) archive_path = o) by (change (w_disk w3) with (w_disk (fst (announce stage 4 w3))); congruence).
                destruct o as [s|]; [|discriminate]. apply read_place in Hro. destruct Hro as (m' & _ & Hro).
                rewrite place_archive in Hro. unfold w_fs in Ha'. assert (s = a) by congruence. subst s.
                rewrite Et in H4. discriminate. }
          destruct (fs_get (w_fs w6) (app_name :: cacheL)) as [[c0 m0|]|] eqn:Eg; try exact Hk6.
          specialize (Hch c0 m0 eq_refl).
          destruct (loc_eqb (app_name :: cacheL) L);
          destruct (fs_get (w_fs w6) L) as [[c1 m1|]|]; solve [exact Hk6 | exact Hch]. }
        destruct (rename binary_path exe w6) as [w7 [x| |n]]; exact Hr. }
      unfold bind at 1. destruct (as_step (replace_binary binary_path) w6) as [w7 [[e|]| |n]]; try exact Hrep.
      cbn [fst] in Hrep.
      refine (keeps_bind _ _ _ (keeps_announce _ _ _ stage 7) _ w7 Hrep). intros _.
      apply keeps_bind; [|intros [e|]; apply keeps_ret].
      apply keeps_as_step. apply keeps_remove_cache. intros g l Hl. now apply Hdel.
Qed.
Print Assumptions C50_only_verified_installed_partial.

(** A server, an archive and a machine to run updates on. *)
Definition demo_release : bytes :=
  b "[{""tag_name"":""1.4.0"",""body"":""n"",""assets"":[{""name"":""1pass.tar.gz"",""browser_download_url"":""u:a""},{""name"":""1pass.md5"",""browser_download_url"":""u:c""}]}]".
Definition exeL : loc := [b "1pass"; b "bin"].
Definition update_world (answers : list net_reply) : world :=
  MkWorld (MkDisk [([b "bin"], NDir); (exeL, NFile (b "old") 493); ([b "tmp"], NDir)] [] (fun _ => false))
    18 (Some (b "/bin/1pass")) [] answers [] [] [] [].
Definition served (a c : bytes) : list net_reply := [NetBody demo_release true; NetBody a true; NetBody c true].
Definition tar (es : list entry) : unpacker := fun s => if bytes_eqb s (b "tgz") then Some (es, true) else None.
Definition demo_sum : bytes := hex_encode (md5 toy_crypto (b "new")) ++ b "  1pass".
Definition demo_tar : unpacker := tar [MkEntry (b "doc") false [] true; MkEntry (b "./1pass") true (b "new") true].

Lemma update_world_installed answers : installed (update_world answers) exeL (b "old") 493.
Proof. exists (b "/bin/1pass"). repeat split. Qed.

Lemma served_archive a c x : answer (update_world (served a c)) 1 x -> x = a.
Proof. unfold answer, served, update_world. cbn [w_net nth_error]. congruence. Qed.

Lemma tar_entries es es' proper : tar es (b "tgz") = Some (es', proper) -> es' = es.
Proof. unfold tar. rewrite bytes_eqb_refl. congruence. Qed.

Example C50_example :
  installed (update_world (served (b "tgz") demo_sum)) exeL (b "old") 493 /\ ~ in_cache exeL /\
  archive_has demo_tar (fun e => stays_inside e /\ not_checksum e) (update_world (served (b "tgz") demo_sum)) /\
  fs_get (w_fs (fst (update toy_crypto demo_tar (fun _ => []) (update_world (served (b "tgz") demo_sum))))) exeL =
    Some (NFile (b "new") 420) /\
  attests toy_crypto demo_sum (b "new").
Proof.
  split; [apply update_world_installed|]. split; [intros H; apply in_cache_below in H; discriminate|].
  split.
  - intros a es proper Ha. assert (a = b "tgz") by (apply served_archive in Ha; exact Ha). subst a.
    intros Hes. apply tar_entries in Hes. subst es. repeat constructor; intros H; vm_compute in H |- *; intuition discriminate.
  - split; [vm_compute; reflexivity|]. apply fields_first_iff. eexists. vm_compute. reflexivity.
Qed.

Lemma hex_even x : Nat.even (length (hex_encode x)) = true.
Proof. unfold hex_encode. induction x as [|c x IH]; [reflexivity|]. cbn. exact IH. Qed.

(** Without these conditions it fails: whatever the cryptography, the archive is unpacked
    before anything is checked, and an entry with dots in its name writes over the
    installed program... *)
Theorem C50_archive_overwrites_program_refuted : forall C stage, exists T w L old mode f content m c,
  w_trace w = [] /\ installed w L old mode /\ ~ in_cache L /\
  In f (moments (fst (update C T stage w))) /\ fs_get f L = Some (NFile content m) /\
  content <> old /\ answer w 2 c /\ ~ attests C c content.
Proof.
  intros C stage.
  set (w := update_world (served (b "tgz") (b "x"))).
  set (T := tar [MkEntry (b "../../bin/1pass") true (b "e") true]).
  exists T, w, exeL, (b "old"), 493%N.
  exists (w_fs (fst (update C T stage w))), (b "e"), 493%N, (b "x").
  split; [reflexivity|]. split; [apply update_world_installed|].
  split; [intros H; apply in_cache_below in H; discriminate|].
  split; [apply moments_in; vm_compute; tauto|].
  split; [vm_compute; reflexivity|]. split; [discriminate|]. split; [reflexivity|].
  intros H. assert (Hx : first_word (b "x") (b "x")) by (apply fields_first_iff; eexists; vm_compute; reflexivity).
  apply fields_first_iff in H, Hx. destruct H as [l1 H], Hx as [l2 Hx]. assert (Hh : hex_encode (md5 C (b "e")) = b "x") by congruence.
  assert (He := hex_even (md5 C (b "e"))). rewrite Hh in He. discriminate.
Qed.
Print Assumptions C50_archive_overwrites_program_refuted.

(** ... and an archive can bring the checksum that is then used. *)
Theorem C50_archive_vouches_for_itself_refuted : exists T w L old mode content m c,
  w_trace w = [] /\ installed w L old mode /\ ~ in_cache L /\ archive_has T stays_inside w /\
  snd (update toy_crypto T (fun _ => []) w) = Ok None /\
  fs_get (w_fs (fst (update toy_crypto T (fun _ => []) w))) L = Some (NFile content m) /\
  content <> old /\ answer w 2 c /\ ~ attests toy_crypto c content.
Proof.
  set (w := update_world (served (b "tgz") (b "x"))).
  set (es := [MkEntry (b "checksum.md5") true (hex_encode (md5 toy_crypto (b "e"))) true; MkEntry (b "1pass") true (b "e") true]).
  exists (tar es), w, exeL, (b "old"), 493%N, (b "e"), 420%N, (b "x").
  split; [reflexivity|]. split; [apply update_world_installed|].
  split; [intros H; apply in_cache_below in H; discriminate|].
  split.
  { intros a l proper Ha. assert (a = b "tgz") by (apply served_archive in Ha; exact Ha). subst a.
    intros Hes. apply tar_entries in Hes. subst l.
    repeat constructor; intros H; vm_compute; intuition discriminate. }
  split; [vm_compute; reflexivity|]. split; [vm_compute; reflexivity|]. split; [discriminate|]. split; [reflexivity|].
  intros H. assert (Hx : first_word (b "x") (b "x")) by (apply fields_first_iff; eexists; vm_compute; reflexivity).
  apply fields_first_iff in H, Hx. destruct H as [l1 H], Hx as [l2 Hx]. assert (Hh : hex_encode (md5 toy_crypto (b "e")) = b "x") by congruence.
  assert (He := hex_even (md5 toy_crypto (b "e"))). rewrite Hh in He. discriminate.
Qed.
Print Assumptions C50_archive_vouches_for_itself_refuted.

(** ** C51 *)

(** Everything outside the cache directory is as it was, but for a missing /tmp that had
    to be made. *)
Definition untouched (before f : fs) : Prop := forall k, ~ in_cache k ->
  fs_get f k = fs_get before k \/ k = [b "tmp"] /\ fs_get before k = None /\ fs_get f k = Some NDir.

Lemma untouched_outside f0 f : outside_same f0 f -> untouched f0 f.
Proof.
  intros H k Hk. apply H. destruct (below cacheL k) eqn:E; [|reflexivity]. elim Hk. now apply in_cache_below.
Qed.

Lemma always_trace E I w f : always E I w -> In (EFs f) (w_trace w) -> I f.
Proof. intros H Hf. apply always_moments in H. destruct H as (_ & _ & H). rewrite Forall_forall in H. apply H. now apply moments_in. Qed.

(** With an archive whose names stay inside: whatever happens before the program is
    replaced (stage 6; the trace is newest first) touches nothing outside the cache. *)
Theorem C51_only_cache_touched_partial : forall C T stage w later f earlier,
  w_trace w = [] -> archive_has T stays_inside w ->
  w_trace (fst (update C T stage w)) = later ++ EFs f :: earlier -> ~ In (EStage 6) earlier ->
  untouched (w_fs w) f.
Proof.
  intros C T stage w later f earlier Ht HT Htr Hns. apply untouched_outside.
  destruct (update_ways C T stage w) as [[Hu _]|(info & _ & _ & Hu)]; rewrite Hu in Htr.
  - apply (always_trace (env w) (outside_same (w_fs w)) (fst (fetch_info w))).
    + apply keeps_fetch. apply always_nil; [exact Ht|reflexivity|apply outside_refl].
    + rewrite Htr. apply in_or_app. right. now left.
  - rewrite steps_split in Htr.
    assert (Hpre := outside_pre C T stage info w Ht HT).
    destruct (run_stages_reach stage 6 (as_step (replace_binary binary_path)) (firstn 5 (steps C T info))
      [(7, as_step (remove_all cache_dir))] (fst (fetch_info w))) as [(e & H1 & _)|(w5 & H1 & H2)].
    + rewrite H1 in Hpre. cbn [fst] in Hpre. apply (always_trace _ _ _ _ Hpre).
      rewrite Htr. apply in_or_app. right. now left.
    + rewrite H2 in Htr. rewrite H1 in Hpre. cbn [fst] in Hpre. apply (always_trace _ _ _ _ Hpre).
      assert (Hem : emits (fun _ => True) (fun w => (e <- as_step (replace_binary binary_path) ;;
        match e with Some x => ret (Some x) | None => run_stages stage [(7, as_step (remove_all cache_dir))] end)%st w)).
      { apply emits_bind; [apply emits_as_step; now apply emits_replace|]. intros [e|]; [apply emits_ret|].
        apply run_stages_emits; try (now intros). constructor; [|constructor]. apply emits_as_step. now apply emits_remove. }
      destruct (Hem (fst (announce stage 6 w5))) as (t & Hx & _).
      assert (Hy : w_trace (fst (run_stages stage ((6, as_step (replace_binary binary_path)) :: [(7, as_step (remove_all cache_dir))]) w5)) =
        (t ++ [EOut (stage 6)]) ++ EStage 6 :: w_trace w5).
      { rewrite <- app_assoc. exact Hx. }
      rewrite Htr in Hy. apply (before_mark _ _ _ _ _ _ Hy Hns). discriminate.
Qed.
Print Assumptions C51_only_cache_touched_partial.

Lemma keeps_replace B E (I : fs -> Prop) exe :
  snd E = Some exe ->
  (forall f c m, I f -> I (fs_set (place (fst (fst (fst E))) exe) (NFile c m) (fs_del (app_name :: cacheL) f))) ->
  keeps (since B E I) (replace_binary binary_path).
Proof.
  intros Hexe HI w Hw. assert (He := proj1 Hw).
  unfold replace_binary, bind, executable.
  assert (Hx : w_exe w = Some exe) by (rewrite <- Hexe, <- He; reflexivity). rewrite Hx.
  unfold rename. destruct (resolve (w_disk w) binary_path) as [ls|] eqn:Es; [|exact Hw].
  destruct (resolve_new (w_disk w) exe) as [ld|] eqn:Ed; [|exact Hw].
  apply resolve_place in Es. rewrite place_binary in Es. subst ls. apply resolve_new_place in Ed.
  assert (Hld : ld = place (fst (fst (fst E))) exe) by (rewrite <- He; exact Ed). clear Ed. subst ld.
  destruct (fs_get (w_fs w) (app_name :: cacheL)) as [[c m|]|]; try exact Hw.
  assert (Hc : since B E I (fst (change (fun f => fs_set (place (fst (fst (fst E))) exe) (NFile c m) (fs_del (app_name :: cacheL) f)) w))).
  { apply keeps_change; [|exact Hw]. intros f. apply HI. }
  destruct (loc_eqb (app_name :: cacheL) (place (fst (fst (fst E))) exe));
  destruct (fs_get (w_fs w) (place (fst (fst (fst E))) exe)) as [[c1 m1|]|]; solve [exact Hw | exact Hc].
Qed.

(** And at no moment at all anything but the cache and the program itself. *)
Theorem C51_only_program_changed_partial : forall C T stage w exe f k,
  w_trace w = [] -> archive_has T stays_inside w -> w_exe w = Some exe ->
  In f (moments (fst (update C T stage w))) -> ~ in_cache k -> k <> place (d_cwd (w_disk w)) exe ->
  fs_get f k = fs_get (w_fs w) k \/ k = [b "tmp"] /\ fs_get (w_fs w) k = None /\ fs_get f k = Some NDir.
Proof.
  intros C T stage w exe f k Ht HT Hexe Hf Hk HL.
  assert (Hb : below cacheL k = false).
  { destruct (below cacheL k) eqn:E; [|reflexivity]. elim Hk. now apply in_cache_below. }
  set (I := fun f => fs_get f k = fs_get (w_fs w) k \/ k = [b "tmp"] /\ fs_get (w_fs w) k = None /\ fs_get f k = Some NDir).
  assert (Hsame : forall f, outside_same (w_fs w) f -> I f) by (intros g Hg; exact (Hg k Hb)).
  assert (Hdel : forall f l, below cacheL l = true -> I f -> I (fs_del l f)).
  { intros g l Hl Hg. unfold I. rewrite fs_get_del_other by congruence. exact Hg. }
  assert (G : always (env w) I (fst (update C T stage w))).
  2:{ apply moments_in in Hf. exact (always_trace _ _ _ _ G Hf). }
  destruct (update_ways C T stage w) as [[-> _]|(info & _ & _ & ->)].
  - apply (since_weaken _ _ (outside_same (w_fs w))); [exact Hsame|].
    apply keeps_fetch. apply always_nil; [exact Ht|reflexivity|apply outside_refl].
  - rewrite steps_split, run_stages_app.
    assert (Hpre := since_weaken _ _ _ _ _ Hsame (outside_pre C T stage info w Ht HT)).
    destruct (run_stages stage (firstn 5 (steps C T info)) (fst (fetch_info w))) as [w5 [[e|]| |n]]; try exact Hpre.
    cbn [fst] in Hpre. apply keeps_run; [|exact Hpre].
    constructor; [|constructor; [|constructor]]; cbn [snd]; apply keeps_as_step.
    + apply (keeps_replace _ _ _ exe); [exact Hexe|]. intros g c m Hg. unfold I.
      rewrite fs_get_set_other by exact HL. now apply Hdel.
    + apply keeps_remove_cache. exact Hdel.
Qed.
Print Assumptions C51_only_program_changed_partial.

Example C51_example :
  let r := update toy_crypto demo_tar (fun _ => []) (update_world (served (b "tgz") demo_sum)) in
  archive_has demo_tar stays_inside (update_world (served (b "tgz") demo_sum)) /\
  length (moments (fst r)) = 53 /\ snd r = Ok None.
Proof.
  cbn zeta. split; [|split; vm_compute; reflexivity].
  intros a es proper Ha Hes. assert (H := proj1 (proj2 (proj2 C50_example)) a es proper Ha Hes).
  eapply Forall_impl; [|exact H]. intros e He. apply He.
Qed.

(** It fails for archives in general. *)
Theorem C51_archive_writes_anywhere_refuted : forall C stage, exists T w k later f earlier,
  w_trace w = [] /\ ~ in_cache k /\
  w_trace (fst (update C T stage w)) = later ++ EFs f :: earlier /\ ~ In (EStage 5) earlier /\
  fs_get (w_fs w) k = None /\ fs_get f k = Some (NFile (b "e") 420).
Proof.
  intros C stage.
  set (w := update_world (served (b "tgz") (b "x"))).
  set (T := tar [MkEntry (b "../../bin/ls") true (b "e") true]).
  exists T, w, [b "ls"; b "bin"].
  set (r := w_trace (fst (update C T stage w))).
  exists (firstn 2 r). exists (w_fs (fst (update C T stage w))). exists (skipn 3 r).
  split; [reflexivity|]. split; [intros H; apply in_cache_below in H; discriminate|].
  split; [vm_compute; reflexivity|].
  split; [vm_compute; intuition discriminate|]. split; vm_compute; reflexivity.
Qed.
Print Assumptions C51_archive_writes_anywhere_refuted.

(** ** C52 *)

(** Some execute permission. *)
Definition may_run (mode : N) : Prop := N.land mode 73 <> 0%N.

Definition plain_cache (f : fs) : Prop := forall k c m,
  below cacheL k = true -> fs_get f k = Some (NFile c m) -> N.land m 73 = 0%N.

Lemma created_plain u : N.land (N.ldiff 438 u) 73 = 0%N.
Proof.
  apply N.bits_inj. intros i. rewrite N.land_spec, N.ldiff_spec, N.bits_0.
  assert (H : N.land 438 73 = 0%N) by reflexivity. apply (f_equal (fun n => N.testbit n i)) in H.
  rewrite N.land_spec, N.bits_0 in H. destruct (N.testbit 438 i), (N.testbit 73 i), (N.testbit u i); try discriminate; reflexivity.
Qed.

Lemma plain_set f l c m : N.land m 73 = 0%N -> plain_cache f -> plain_cache (fs_set l (NFile c m) f).
Proof.
  intros Hm H k c' m' Hk Hg. destruct (loc_eqb k l) eqn:E.
  - apply loc_eqb_eq in E. subst l. rewrite fs_get_set_same in Hg by now apply below_nonempty. congruence.
  - apply loc_eqb_neq in E. rewrite fs_get_set_other in Hg by exact E. now apply (H k c').
Qed.

Lemma plain_write l : may_write plain_cache l.
Proof.
  intros f c m c' H Hg. destruct (below cacheL l) eqn:E.
  - apply plain_set; [|exact H]. now apply (H l c).
  - intros k c0 m0 Hk Hg0. rewrite fs_get_set_other in Hg0 by congruence. now apply (H k c0).
Qed.

Lemma plain_create l u : may_create plain_cache l (N.ldiff 438 u).
Proof. intros f H _. apply plain_set; [apply created_plain|exact H]. Qed.

Lemma keeps_entries_plain B E es proper : keeps (since B E plain_cache) (extract_entries cache_dir es proper).
Proof. apply keeps_entries. apply Forall_forall. intros e _ _. split; [apply plain_write|apply plain_create]. Qed.

Lemma keeps_plain B E stage C T info : keeps (since B E plain_cache) (run_stages stage (firstn 4 (tl (steps C T info)))).
Proof.
  apply keeps_run. change (firstn 4 (tl (steps C T info))) with
    [(2, as_step (download archive_path (ui_archive info)));
     (3, as_step (download checksum_path (ui_checksum info)));
     (4, as_step (extract T archive_path cache_dir));
     (5, validate_checksum C binary_path checksum_path)].
  assert (Hs : forall p u, keeps (since B E plain_cache) (download p u)).
  { intros p u. apply keeps_bind; [apply keeps_http|]. intros [|body c]; [apply keeps_ret|].
    apply keeps_save; [apply plain_write|apply plain_create]. }
  apply Forall_cons; [|apply Forall_cons; [|apply Forall_cons; [|apply Forall_cons; [|apply Forall_nil]]]]; cbn [snd].
  - now apply keeps_as_step.
  - now apply keeps_as_step.
  - apply keeps_as_step. intros w Hw. unfold extract, bind, io_read.
    destruct (read_file (w_disk w) archive_path) as [s|]; [|exact Hw]. destruct (T s) as [[es proper]|]; [|exact Hw].
    now apply keeps_entries_plain.
  - intros w Hw. rewrite validate_same. exact Hw.
Qed.

(** After removing and making the cache directory there is no file in it. *)
Lemma step1_empty w w' : wf_fs (w_fs w) -> step1 w = (w', Ok None) ->
  env w' = env w /\ forall k c m, below cacheL k = true -> fs_get (w_fs w') k <> Some (NFile c m).
Proof.
  intros Hwf H. unfold step1 in H. apply bind_ok in H. destruct H as (w1 & ok & Hr & H).
  destruct ok; [|discriminate]. apply as_step_ok in H.
  assert (H1 : env w1 = env w /\ forall k, below cacheL k = true -> fs_get (w_fs w1) k = None).
  { destruct (resolve (w_disk w) cache_dir) as [l|] eqn:E.
    - assert (l = cacheL) by (rewrite resolve_cache in E; destruct (fs_get (d_fs (w_disk w)) [b "tmp"]) as [[|]|], (fs_get (d_fs (w_disk w)) cacheL); congruence).
      subst l. destruct (removed_cache _ _ E Hr) as (He & Hn & _). auto.
    - unfold remove_all in Hr. rewrite E in Hr. assert (w = w1) by congruence. subst w1.
      split; [reflexivity|]. intros k Hk. apply below_spec in Hk. destruct Hk as [x ->].
      assert (G : fs_get (w_fs w) cacheL = None).
      { destruct (fs_get (w_fs w) cacheL) as [n|] eqn:Ec; [|reflexivity].
        assert (Hd : is_dir (w_fs w) [b "tmp"] = true) by (apply (Hwf (b "1pass")); unfold cacheL in Ec; congruence).
        rewrite resolve_cache in E. unfold is_dir in Hd. unfold w_fs in *. rewrite Ec in E.
        destruct (fs_get _ [b "tmp"]) as [[|]|]; discriminate. }
      induction x as [|e x IH]; [exact G|]. cbn [app]. destruct (fs_get (w_fs w) (e :: x ++ cacheL)) eqn:Ex; [|reflexivity].
      assert (Hd : is_dir (w_fs w) (x ++ cacheL) = true) by (apply (Hwf e); congruence).
      unfold is_dir in Hd. rewrite IH in Hd. discriminate. }
  destruct H1 as [He1 Hn1].
  assert (HJ : since (w_trace w1) (env w1) (fun f => forall k c m, below cacheL k = true -> fs_get f k <> Some (NFile c m)) w').
  { assert (Hk := keeps_mkdir_cache (w_trace w1) (env w1)
      (fun f => forall k c m, below cacheL k = true -> fs_get f k <> Some (NFile c m))).
    specialize (Hk ltac:(intros f Hf k c m Hkb Hg; destruct (loc_eqb k cacheL) eqn:E;
      [apply loc_eqb_eq in E; subst k; rewrite fs_get_set_same in Hg by discriminate; discriminate|
       apply loc_eqb_neq in E; rewrite fs_get_set_other in Hg by exact E; now apply (Hf k c m)])).
    specialize (Hk ltac:(intros f Hf _ k c m Hkb Hg; rewrite fs_get_set_other in Hg by (intros ->; discriminate); now apply (Hf k c m))).
    specialize (Hk w1). rewrite H in Hk. apply Hk. apply since_start; [reflexivity|].
    intros k c m Hb. rewrite (Hn1 k Hb). discriminate. }
  destruct HJ as (E1 & E2 & _). split; [congruence|exact E2].
Qed.

(** The updated program never is executable: whenever an update succeeds, the
    installed file has no execute permission. *)
Theorem C52_updated_program_refuted : forall C T stage w w' L content mode,
  wf_fs (w_fs w) -> update C T stage w = (w', Ok None) -> ~ in_cache L -> installed w' L content mode ->
  ~ may_run mode.
Proof.
  intros C T stage w w' L content mode Hwf Hu Hout (exe & Hexe & Hres & Hget) Hrun. apply Hrun. clear Hrun.
  assert (Hb : below cacheL L = false).
  { destruct (below cacheL L) eqn:E; [|reflexivity]. elim Hout. now apply in_cache_below. }
  destruct (update_ways C T stage w) as [[_ Hx]|(info & _ & _ & Hx)]; [rewrite Hu in Hx; now elim Hx|].
  rewrite Hx in Hu. clear Hx.
  destruct (ran_all _ _ _ _ _ _ Hu) as (w1 & w5 & w6 & H1 & H5 & _ & H6 & H7).
  assert (Hwf1 : wf_fs (w_fs (fst (announce stage 1 (fst (fetch_info w)))))).
  { change (w_fs (fst (announce stage 1 (fst (fetch_info w))))) with (w_fs (fst (fetch_info w))).
    assert (Hk := keeps_fetch (w_trace w) (env w) (fun f => f = w_fs w) w ltac:(now apply since_start)).
    rewrite (proj1 (proj2 Hk)). exact Hwf. }
  destruct (step1_empty _ _ Hwf1 H1) as [He1 Hn1].
  assert (HJ := keeps_plain (w_trace w1) (env w1) stage C T info w1 ltac:(apply since_start; [reflexivity|];
    intros k c m Hk Hg; now elim (Hn1 k c m Hk))).
  rewrite H5 in HJ. cbn [fst] in HJ. destruct HJ as (He5 & Hp5 & _).
  assert (Hcache : exists l, resolve (w_disk (fst (announce stage 6 w5))) binary_path = Some l).
  { unfold replace_binary, bind, executable in H6. destruct (w_exe (fst (announce stage 6 w5))); [|discriminate].
    unfold rename in H6. destruct (resolve _ binary_path); [eauto|discriminate]. }
  assert (Hexe5 : w_exe (fst (announce stage 6 w5)) = Some exe /\ d_cwd (w_disk (fst (announce stage 6 w5))) = d_cwd (w_disk w')).
  { assert (K7 := keeps_remove_cache (w_trace w6) (env w6) (fun _ => True) ltac:(auto) (fst (announce stage 7 w6))
      ltac:(apply keeps_announce; now apply since_start)). rewrite H7 in K7. destruct K7 as (K7 & _).
    cbn [fst] in K7.
    assert (K6 : env w6 = env w5).
    { unfold replace_binary, bind, executable in H6. destruct (w_exe (fst (announce stage 6 w5))) as [e|] eqn:Ee; [|discriminate].
      assert (K := keeps_replace (w_trace w5) (env w5) (fun _ => True) e Ee ltac:(auto) (fst (announce stage 6 w5))
        ltac:(apply keeps_announce; now apply since_start)).
      unfold replace_binary, bind, executable in K. rewrite Ee, H6 in K. exact (proj1 K). }
    change (w_exe (fst (announce stage 6 w5))) with (w_exe w5). change (w_disk (fst (announce stage 6 w5))) with (w_disk w5).
    unfold env in *. split; congruence. }
  destruct Hexe5 as [Hexe5 Hcwd5].
  assert (HL : place (d_cwd (w_disk (fst (announce stage 6 w5)))) exe = L).
  { rewrite Hcwd5. apply resolve_place in Hres. congruence. }
  destruct (replace_ok _ _ _ H6 Hexe5) as (c & m & Hbin & Hf6 & _ & He6 & Hne & Hd1 & Hd2); [now rewrite HL|].
  rewrite HL in *.
  assert (Hrc : resolve (w_disk (fst (announce stage 7 w6))) cache_dir = Some cacheL).
  { rewrite resolve_cache. change (d_fs (w_disk (fst (announce stage 7 w6)))) with (w_fs w6). now rewrite Hd1, Hd2. }
  destruct (removed_cache _ _ Hrc H7) as (_ & _ & Hsame).
  rewrite (Hsame L Hb) in Hget. change (w_fs (fst (announce stage 7 w6))) with (w_fs w6) in Hget.
  rewrite Hf6, fs_get_set_same in Hget by exact Hne.
  assert (m = mode) by congruence. subst m. apply (Hp5 (app_name :: cacheL) c); [reflexivity|exact Hbin].
Qed.
Print Assumptions C52_updated_program_refuted.

Example C52_example :
  let r := update toy_crypto demo_tar (fun _ => []) (update_world (served (b "tgz") demo_sum)) in
  snd r = Ok None /\ installed (update_world []) exeL (b "old") 493 /\ may_run 493 /\ installed (fst r) exeL (b "new") 420.
Proof.
  cbn zeta. split; [vm_compute; reflexivity|]. split; [apply update_world_installed|]. split; [discriminate|].
  exists (b "/bin/1pass"). repeat split; vm_compute; reflexivity.
Qed.

(** ** C53 *)

(** The numbers of the stages reported so far, oldest first. *)
Definition reported (w : world) : list nat :=
  rev (flat_map (fun e => match e with EStage n => [n] | _ => [] end) (w_trace w)).

Lemma prefix_seq C T info k : k <= 7 -> firstn k (map fst (steps C T info)) = seq 1 k.
Proof. intros H. do 8 (destruct k as [|k]; [reflexivity|]). lia. Qed.

Lemma steps_quiet C T info : Forall (fun ns => emits no_stage (snd ns)) (steps C T info).
Proof. apply steps_emit; try (intros; exact Logic.I); exact Logic.I. Qed.

Lemma fetch_no_stage w : stages (fst (fetch_info w)) = stages w.
Proof. apply emits_stages. apply emits_fetch. exact Logic.I. Qed.

Lemma fetch_answer w i : snd (fetch_info w) = Ok (Val i) -> exists body, answer w 0 body.
Proof.
  unfold fetch_info, bind, http_get, answer. change github_releases with (b "https://api.github.com/repos/mashmb/1pass/releases").
  destruct (b "https://api.github.com/repos/mashmb/1pass/releases") as [|u0 us0] eqn:E; [discriminate|].
  destruct (w_net w) as [|[|body [|]] rest]; cbn [nth_error snd]; try discriminate. eauto.
Qed.

(** Reaching a stage means that the stages before it succeeded. *)
Lemma reached stage C T info w k i : i < 7 ->
  stages (fst (run_stages stage (steps C T info) w)) = stages w ++ seq 1 k -> i < k ->
  exists wi, run_stages stage (firstn i (steps C T info)) w = (wi, Ok None).
Proof.
  intros Hi Hst Hk.
  assert (Hsplit : exists s l2, steps C T info = firstn i (steps C T info) ++ (S i, s) :: l2).
  { do 7 (destruct i as [|i]; [eexists; eexists; reflexivity|]). lia. }
  destruct Hsplit as (s & l2 & Hsplit).
  rewrite Hsplit in Hst.
  destruct (run_stages_reach stage (S i) s (firstn i (steps C T info)) l2 w) as [(e & H1 & _)|(w1 & H1 & _)].
  - assert (Hq : Forall (fun ns => emits no_stage (snd ns)) (firstn i (steps C T info))).
    { assert (Hq := steps_quiet C T info). rewrite Hsplit in Hq. apply Forall_app in Hq. apply Hq. }
    destruct (run_stages_prefix stage _ Hq w) as (k' & Hk' & Hs' & _). rewrite H1 in Hs'. cbn [fst] in Hs'.
    rewrite Hst in Hs'. apply app_inv_head in Hs'. apply (f_equal (@length nat)) in Hs'.
    rewrite seq_length, firstn_length in Hs'. rewrite firstn_length in Hk'. rewrite <- map_length with (f := fst) in Hk'.
    rewrite map_length in Hk'. lia.
  - exists w1. exact H1.
Qed.

Lemma archive_done stage C T info w w2 :
  run_stages stage (firstn 2 (steps C T info)) w = (w2, Ok None) ->
  exists a rest, w_net w = NetBody a true :: rest.
Proof.
  unfold steps. cbn [firstn]. intros H.
  apply run_one in H. destruct H as (w1 & H1 & H).
  apply run_one in H. destruct H as (w2' & H2 & _).
  assert (N1 := offline_step1 (fst (announce stage 1 w))). rewrite H1 in N1. cbn [fst announce] in N1. cbn in N1.
  apply as_step_ok in H2. apply download_ok in H2. destruct H2 as (a & r2 & wa & E2 & _).
  cbn in E2. exists a, r2. congruence.
Qed.

Lemma entries_whole dst proper : forall es w w', extract_entries dst es proper w = (w', Ok true) ->
  proper = true /\ Forall (fun e => e_regular e = true -> e_whole e = true) es.
Proof.
  induction es as [|e es IH]; intros w w'; cbn [extract_entries].
  - unfold ret. intros H. split; [congruence|constructor].
  - destruct (e_regular e) eqn:Er.
    + intros H. apply bind_ok in H. destruct H as (w1 & ok & Hs & H). destruct ok; [|discriminate]. destruct (IH _ _ H) as [Hp Hw].
      split; [exact Hp|]. constructor; [|exact Hw]. intros _. unfold save_stream in Hs. apply bind_ok in Hs. destruct Hs as (w2 & [l|] & _ & Hs); [|discriminate].
      apply bind_ok in Hs. destruct Hs as (w3 & ok & _ & Hs). unfold ret in Hs. assert (Hx : ok && e_whole e = true) by congruence.
      now apply andb_true_iff in Hx.
    + intros H. destruct (IH _ _ H) as [Hp Hw]. split; [exact Hp|]. constructor; [congruence|exact Hw].
Qed.

Lemma archive_unpacked stage C T info w w4 :
  run_stages stage (firstn 4 (steps C T info)) w = (w4, Ok None) ->
  exists a rest es, w_net w = NetBody a true :: rest /\ T a = Some (es, true) /\ Forall (fun e => e_regular e = true -> e_whole e = true) es.
Proof.
  intros H. change (firstn 4 (steps C T info)) with (first3 C T info ++ [(4, as_step (extract T archive_path cache_dir))]) in H.
  rewrite run_stages_app in H.
  destruct (run_stages stage (first3 C T info) w) as [w3 [[e|]| |n]] eqn:H3; try discriminate.
  destruct (downloads_done stage C T info _ _ H3) as (a & c & rest & ma & mc & Hn & Ha & Hc).
  apply run_one in H. destruct H as (w4' & H4 & _).
  apply as_step_ok in H4. unfold extract in H4. apply bind_ok in H4. destruct H4 as (w5 & o & Hr & H4).
  unfold io_read in Hr. assert (w5 = fst (announce stage 4 w3)) by congruence. subst w5.
  assert (Hro : read_file (w_disk w3) archive_path = o) by (change (w_disk w3) with (w_disk (fst (announce stage 4 w3))); congruence).
  destruct o as [s|]; [|discriminate].
  assert (s = a).
  { apply read_place in Hro. destruct Hro as (m' & _ & Hro). rewrite place_archive in Hro. unfold w_fs in Ha. congruence. }
  subst s. destruct (T a) as [[es proper]|] eqn:Et; [|discriminate]. destruct (entries_whole _ _ _ _ _ H4) as [-> Hw].
  exists a, (NetBody c true :: rest), es. auto.
Qed.

(** The reported stages always are 1..k, and 1..7 exactly if all went well;  a
    stage is only reached if what the earlier ones needed from the network came, and the stage after unpacking only if the
    archive is readable to its end with every file in it whole;
    and the first file operation that fails is the last one tried, and makes the update
    fail. *)
Theorem C53_failing_step_stops : forall C T stage w w' r,
  w_trace w = [] -> update C T stage w = (w', r) ->
  (exists k, k <= 7 /\ reported w' = seq 1 k /\ (r = Ok None -> k = 7) /\
    (1 <= k -> exists x, answer w 0 x) /\ (3 <= k -> exists x, answer w 1 x) /\ (4 <= k -> exists x, answer w 2 x) /\
    (5 <= k -> exists archive es, answer w 1 archive /\ T archive = Some (es, true) /\ Forall (fun e => e_regular e = true -> e_whole e = true) es)) /\
  (forall e, r = Ok e ->
    exists u, w_faults w = repeat None u ++ w_faults w' \/
      exists n, w_faults w = repeat None u ++ Some n :: w_faults w' /\ e <> None).
Proof.
  intros C T stage w w' r Ht Hu.
  assert (Hs0 : stages w = []) by (unfold stages; rewrite Ht; reflexivity).
  assert (Hff : w_faults (fst (fetch_info w)) = w_faults w).
  { unfold fetch_info, bind, http_get.
    change github_releases with (b "https://api.github.com/repos/mashmb/1pass/releases").
    destruct (b "https://api.github.com/repos/mashmb/1pass/releases") as [|u0 us0] eqn:E; [discriminate|].
    destruct (w_net w) as [|[|body [|]] rest]; reflexivity. }
  destruct (update_ways C T stage w) as [[Hf Hx]|(info & Hi & _ & Hx)]; rewrite Hu in *; cbn [fst snd] in *.
  - split.
    + exists 0. change (reported w') with (stages w'). rewrite Hf, fetch_no_stage, Hs0. repeat split; try lia. intros Hr. contradiction.
    + intros e _. exists 0. left. rewrite Hf, Hff. reflexivity.
  - assert (Hp := run_stages_prefix stage _ (steps_quiet C T info) (fst (fetch_info w))).
    destruct Hp as (k & Hk & Hst & Hok). rewrite <- Hx in Hst, Hok. cbn [fst snd] in Hst, Hok.
    change (length (steps C T info)) with 7 in *. rewrite prefix_seq in Hst by exact Hk.
    split.
    + exists k. split; [exact Hk|]. change (reported w') with (stages w').
      assert (Hst' := Hst). rewrite fetch_no_stage, Hs0 in Hst'. split; [exact Hst'|]. split; [exact Hok|].
      assert (Hst2 : stages (fst (run_stages stage (steps C T info) (fst (fetch_info w)))) = stages (fst (fetch_info w)) ++ seq 1 k)
        by (rewrite <- Hx; exact Hst).
      split; [intros _; exact (fetch_answer _ _ Hi)|]. split; [|split].
      * intros H3. destruct (reached _ _ _ _ _ _ 2 ltac:(lia) Hst2 ltac:(lia)) as (w2 & H2).
        destruct (archive_done _ _ _ _ _ _ H2) as (a & rest & Hn). exists a. apply answer_fetch. now rewrite Hn.
      * intros H4. destruct (reached _ _ _ _ _ _ 3 ltac:(lia) Hst2 ltac:(lia)) as (w3 & H3).
        destruct (downloads_done _ _ _ _ _ _ H3) as (a & c & rest & ma & mc & Hn & _). exists c. apply answer_fetch. now rewrite Hn.
      * intros H5. destruct (reached _ _ _ _ _ _ 4 ltac:(lia) Hst2 ltac:(lia)) as (w4 & H4).
        destruct (archive_unpacked _ _ _ _ _ _ H4) as (a & rest & es & Hn & Hes). exists a, es. split; [|exact Hes]. apply answer_fetch. now rewrite Hn.
    + intros e ->. assert (Hs := run_stages_stop stage _ (steps_stop C T info)). symmetry in Hx. apply Hs in Hx.
      rewrite Hff in Hx. destruct Hx as (u & [Hu'|(n & Hu' & Hb)]); exists u; [left; exact Hu'|right; exists n; split; [exact Hu'|exact Hb]].
Qed.
Print Assumptions C53_failing_step_stops.

(** The disk fails when the checksum file is written. *)
Example C53_example :
  let w := set_faults (repeat None 4 ++ [Some 3; None]) (update_world (served (b "tgz") demo_sum)) in
  let r := update toy_crypto demo_tar (fun _ => []) w in
  snd r = Ok (Some io_error) /\ reported (fst r) = [1; 2; 3] /\ w_faults (fst r) = [None].
Proof. vm_compute. auto. Qed.

(** The archive is cut off after the program. *)
Example C53_archive_example :
  let cut := fun s => match demo_tar s with Some (es, _) => Some (es, false) | None => None end in
  let r := update toy_crypto cut (fun _ => []) (update_world (served (b "tgz") demo_sum)) in
  snd r = Ok (Some io_error) /\ reported (fst r) = [1; 2; 3; 4].
Proof. vm_compute. auto. Qed.

(** ** C54 *)

(** A successful update reports the stages 1 to 7; at its end nothing is left in the cache; and
    between the reports of the stages 6 and 7 there is one change: the program is
    replaced by one which the checksum file in the cache attests. *)
Theorem C54_update_complete : forall C T stage w w' L old mode,
  w_trace w = [] -> installed w L old mode -> ~ in_cache L -> update C T stage w = (w', Ok None) ->
  reported w' = [1; 2; 3; 4; 5; 6; 7] /\
  (forall k, in_cache k -> fs_get (w_fs w') k = None) /\
  exists later f earlier text data m m',
    w_trace w' = later ++ EOut (stage 7) :: EStage 7 :: EFs f :: EOut (stage 6) :: EStage 6 :: earlier /\
    fs_get f L = Some (NFile data m) /\
    fs_get f (b "checksum.md5" :: [b "1pass"; b "tmp"]) = Some (NFile text m') /\ attests C text data /\
    fs_get (w_fs w') L = Some (NFile data m).
Proof.
  intros C T stage w w' L old mode Ht (exe & Hexe & Hres & Hget) Hout Hu.
  assert (Hb : below cacheL L = false).
  { destruct (below cacheL L) eqn:E; [|reflexivity]. elim Hout. now apply in_cache_below. }
  destruct (C53_failing_step_stops _ _ _ _ _ _ Ht Hu) as [(k & _ & Hrep & Hk & _) _].
  rewrite (Hk eq_refl) in Hrep. split; [exact Hrep|]. clear k Hrep Hk.
  destruct (update_ways C T stage w) as [[_ Hx]|(info & _ & _ & Hx)]; [rewrite Hu in Hx; now elim Hx|].
  rewrite Hx in Hu. clear Hx.
  destruct (ran_all _ _ _ _ _ _ Hu) as (w1 & w5 & w6 & H1 & _ & H5 & H6 & H7).
  assert (He5 : env w5 = env w).
  { assert (K : since [] (env w) (fun _ => True) (fst (run_stages stage (firstn 5 (steps C T info)) (fst (fetch_info w))))).
    { apply pre_keeps; auto.
      - apply keeps_fetch. now apply always_nil.
      - intros a es proper _ _. apply Forall_forall. intros e _ _. split; [intros f c m c' _ _; exact Logic.I|intros f _ _; exact Logic.I]. }
    rewrite H5 in K. exact (proj1 K). }
  assert (Hexe6 : w_exe (fst (announce stage 6 w5)) = Some exe) by (change (w_exe w5 = Some exe); unfold env in He5; congruence).
  assert (HL : place (d_cwd (w_disk (fst (announce stage 6 w5)))) exe = L).
  { change (place (d_cwd (w_disk w5)) exe = L). apply resolve_place in Hres. unfold env in He5. congruence. }
  destruct (replace_ok _ _ _ H6 Hexe6) as (c & m & Hbin & Hf6 & Ht6 & He6 & Hne & Hd1 & Hd2); [now rewrite HL|].
  rewrite HL in *.
  assert (Hrc : resolve (w_disk (fst (announce stage 7 w6))) cache_dir = Some cacheL).
  { rewrite resolve_cache. change (d_fs (w_disk (fst (announce stage 7 w6)))) with (w_fs w6). now rewrite Hd1, Hd2. }
  destruct (removed_cache _ _ Hrc H7) as (_ & Hgone & Hsame).
  split; [intros k Hk; apply Hgone; now apply in_cache_below|].
  destruct (before_install _ _ _ _ _ _ H5) as (a & cs & rest & text & data & mb & _ & Hc & _ & Hv & _ & Hbin').
  apply read_place in Hc. destruct Hc as (mc & _ & Hc). rewrite place_checksum in Hc.
  change (w_fs (fst (announce stage 6 w5))) with (w_fs w5) in Hbin, Hf6.
  assert (c = data) by congruence. subst c.
  assert (Hem := emits_remove (fun _ => True) (fun f => Logic.I) cache_dir (fst (announce stage 7 w6))).
  rewrite H7 in Hem. destruct Hem as (t & Htr & _). cbn [fst] in Htr.
  exists t, (w_fs w6), (w_trace w5), text, data, m, mc.
  split; [rewrite Htr; unfold announce; cbn [fst add_event w_trace]; rewrite Ht6; reflexivity|].
  assert (HL6 : fs_get (w_fs w6) L = Some (NFile data m)) by (rewrite Hf6; now apply fs_get_set_same).
  split; [exact HL6|]. split.
  - rewrite Hf6, fs_get_set_other, fs_get_del_other; [exact Hc|discriminate|]. intros <-. discriminate Hb.
  - split; [exact Hv|]. rewrite (Hsame L Hb). exact HL6.
Qed.
Print Assumptions C54_update_complete.

Example C54_example :
  snd (update toy_crypto demo_tar (fun _ => []) (update_world (served (b "tgz") demo_sum))) = Ok None.
Proof. vm_compute. reflexivity. Qed.

(** ** C57 *)

(** No newer release, or none at all: Update says so and leaves the disk alone. *)
Lemma up_to_date : forall C T stage w found,
  snd (fetch_info w) = Ok (Val found) ->
  (found = None \/ exists info, found = Some info /\ ui_newer info = false) ->
  exists w', update C T stage w = (w', Ok (Some ErrNoUpdate)) /\
    w_disk w' = w_disk w /\ w_faults w' = w_faults w /\ w_trace w' = EGet (b "https://api.github.com/repos/mashmb/1pass/releases") :: w_trace w.
Proof.
  intros C T stage w found Hf Hcase.
  assert (H1 : exists w1, fetch_info w = (w1, Ok (Val found)) /\ w_disk w1 = w_disk w /\ w_faults w1 = w_faults w /\
    w_trace w1 = EGet (b "https://api.github.com/repos/mashmb/1pass/releases") :: w_trace w).
  { destruct (fetch_info w) as [w1 r] eqn:E. cbn [snd] in Hf. subst r. exists w1. split; [reflexivity|].
    unfold fetch_info, bind, http_get in E. change github_releases with (b "https://api.github.com/repos/mashmb/1pass/releases") in E.
    remember (b "https://api.github.com/repos/mashmb/1pass/releases") as u. destruct u as [|a u]; [discriminate|].
    destruct (w_net w) as [|[|body [|]] rest]; try discriminate. unfold lift in E.
    assert (Hw : w1 = set_net rest (add_event (EGet (a :: u)) w)) by congruence. subst w1. repeat split. }
  destruct H1 as (w1 & H1 & H2 & H3 & H4). exists w1. split; [|auto].
  rewrite update_stages. unfold bind. rewrite H1.
  destruct Hcase as [->|(info & -> & Hn)]; [reflexivity|]. rewrite Hn. reflexivity.
Qed.

(** ** C62 *)

(** The checksum file decides: validation of two readable files succeeds iff the first
    word of the checksum file is the lower-case hexadecimal MD5 of the binary.  *)
Definition lower_hex (c : ascii) : Prop := In c (b "0123456789abcdef").

Lemma hex_char_lower n : (n < 16)%N -> lower_hex (hex_char n).
Proof.
  intros H. assert (Hn : In n (map N.of_nat (seq 0 16))).
  { apply in_map_iff. exists (N.to_nat n). split; [lia|]. apply in_seq. lia. }
  revert Hn. unfold lower_hex. cbn [map seq In N.of_nat]. intros Hn.
  repeat (destruct Hn as [<-|Hn]; [vm_compute; tauto|]). destruct Hn.
Qed.

Lemma hex_lower s : Forall lower_hex (hex_encode s).
Proof.
  unfold hex_encode. induction s as [|c s IH]; [constructor|]. cbn [flat_map app].
  assert (Hc := vb_lt c). constructor; [|constructor; [|exact IH]]; apply hex_char_lower.
  - apply N.div_lt_upper_bound; lia.
  - apply N.mod_lt. lia.
Qed.

Theorem C62_checksum_decides : forall C binary file w w' text data r,
  read_file (w_disk w) file = Some text -> read_file (w_disk w) binary = Some data ->
  validate_checksum C binary file w = (w', r) ->
  w' = w /\ (r = Ok None <-> first_word text (hex_encode (md5 C data))) /\
  (r <> Ok None -> r = Ok (Some ErrInvalidMd5) \/ (r = Panic /\ forall word, ~ first_word text word)) /\
  Forall lower_hex (hex_encode (md5 C data)).
Proof.
  intros C binary file w w' text data r Ht Hd H. unfold validate_checksum, bind, io_read in H. rewrite Ht, Hd, fields_trim in H.
  destruct (fields text) as [|wd l] eqn:Ef.
  - unfold lift in H. assert (w' = w /\ r = Panic) by (split; congruence). destruct H0 as [-> ->].
    assert (Hno : forall word, ~ first_word text word).
    { intros word Hw. apply fields_first_iff in Hw. destruct Hw as [l' Hw]. congruence. }
    split; [reflexivity|]. split; [split; [discriminate|intros Hw; now elim (Hno _ Hw)]|]. split; [auto|].
    apply hex_lower.
  - unfold ret in H. assert (Hw : w' = w /\ r = Ok (if bytes_eqb wd (hex_encode (md5 C data)) then None else Some ErrInvalidMd5)) by (split; congruence).
    destruct Hw as [-> ->]. split; [reflexivity|]. split; [|split; [|apply hex_lower]].
    + destruct (bytes_eqb wd (hex_encode (md5 C data))) eqn:Eb.
      * apply bytes_eqb_eq in Eb. subst wd. split; [|reflexivity]. intros _. apply fields_first_iff. eauto.
      * split; [discriminate|]. intros Hf. apply fields_first_iff in Hf. destruct Hf as [l' Hf].
        assert (wd = hex_encode (md5 C data)) by congruence. subst wd. rewrite bytes_eqb_refl in Eb. discriminate.
    + destruct (bytes_eqb wd (hex_encode (md5 C data))); [congruence|auto].
Qed.
Print Assumptions C62_checksum_decides.

Example C62_example : exists C w text data, read_file (w_disk w) (b "/s") = Some text /\ read_file (w_disk w) (b "/x") = Some data /\
  validate_checksum C (b "/x") (b "/s") w = (w, Ok None).
Proof.
  exists toy_crypto, (MkWorld (MkDisk [([b "s"], NFile demo_sum 420); ([b "x"], NFile (b "new") 420)] [] (fun _ => false)) 18 None [] [] [] [] [] []).
  eexists. eexists. split; [vm_compute; reflexivity|]. split; [vm_compute; reflexivity|]. vm_compute. reflexivity.
Qed.

(** ** C56 *)

(** Versions are numbers joined by dots and compared from the left. *)
Fixpoint version_text (l : list N) : bytes :=
  match l with
  | [] => []
  | [n] => dec_of_N n
  | n :: l' => dec_of_N n ++ b "." ++ version_text l'
  end.
Fixpoint higher (x y : list N) : Prop :=
  match x, y with
  | [], _ => False
  | _ :: _, [] => True
  | n :: x', m :: y' => (m < n)%N \/ (n = m /\ higher x' y')
  end.

Lemma app_version_text : app_version = version_text [1; 3; 1]%N.
Proof. reflexivity. Qed.

Lemma fetch_newer w info : snd (fetch_info w) = Ok (Val (Some info)) ->
  ui_newer info = (version_number app_version <? version_number (ui_version info))%Z.
Proof.
  unfold fetch_info, bind, http_get. change github_releases with (b "https://api.github.com/repos/mashmb/1pass/releases").
  destruct (b "https://api.github.com/repos/mashmb/1pass/releases") as [|u0 us0] eqn:E; [discriminate|]. clear E.
  destruct (w_net w) as [|[|body [|]] rest]; cbn [snd lift]; try discriminate.
  unfold read_releases. destruct (unmarshal body) as [[[| | | |l|]|] [|]]; try discriminate.
  destruct l as [|j l]; [discriminate|].
  assert (G : forall j, (rbind (as_obj j) (fun m =>
          rbind (as_str (jget (b "body") (Some m))) (fun changelog =>
          rbind (as_str (jget (b "tag_name") (Some m))) (fun version =>
          rbind (as_arr (jget (b "assets") (Some m))) (fun assets =>
          rbind (asset_urls assets [] []) (fun urls =>
          Ok (Val (Some (MkInfo (fst urls) changelog (snd urls)
                (version_number app_version <? version_number version)%Z version)))))))) = Ok (Val (Some info))) ->
          ui_newer info = (version_number app_version <? version_number (ui_version info))%Z).
  { intros j'. destruct (as_obj j') as [m| |]; cbn [rbind]; try discriminate.
    destruct (as_str _) as [cl| |]; cbn [rbind]; try discriminate.
    destruct (as_str _) as [v| |]; cbn [rbind]; try discriminate.
    destruct (as_arr _) as [al| |]; cbn [rbind]; try discriminate.
    destruct (asset_urls _ _ _) as [us| |]; cbn [rbind]; try discriminate.
    intros H. assert (Hi : info = MkInfo (fst us) cl (snd us) (version_number app_version <? version_number v)%Z v) by congruence.
    rewrite Hi. reflexivity. }
  destruct j; try (intros H; apply G in H; exact H). discriminate.
Qed.

(** For three components of one digit each the comparison is right. *)
Theorem C56_newer_single_digits_partial : forall w info x y z,
  snd (fetch_info w) = Ok (Val (Some info)) ->
  ui_version info = version_text [x; y; z] -> (x < 10)%N -> (y < 10)%N -> (z < 10)%N ->
  (ui_newer info = true <-> higher [x; y; z] [1; 3; 1]%N).
Proof.
  intros w info x y z Hf Hv Hx Hy Hz. rewrite (fetch_newer _ _ Hf), Hv, Z.ltb_lt.
  assert (Hn : version_number (version_text [x; y; z]) = Z.of_N (100 * x + 10 * y + z)).
  { cbn [version_text]. rewrite !dec_of_N_small by assumption.
    set (D := [0;1;2;3;4;5;6;7;8;9]%N).
    assert (HD : forall n, (n < 10)%N -> In n D).
    { intros n Hn. change D with (map N.of_nat (seq 0 10)). apply in_map_iff. exists (N.to_nat n). split; [lia|]. apply in_seq. lia. }
    assert (G : forallb (fun x => forallb (fun y => forallb (fun z =>
      (version_number ([digit_char x] ++ b "." ++ [digit_char y] ++ b "." ++ [digit_char z]) =? Z.of_N (100 * x + 10 * y + z))%Z) D) D) D = true)
      by (vm_compute; reflexivity).
    rewrite forallb_forall in G. specialize (G x (HD x Hx)). rewrite forallb_forall in G. specialize (G y (HD y Hy)).
    rewrite forallb_forall in G. specialize (G z (HD z Hz)). apply Z.eqb_eq in G. exact G. }
  rewrite Hn. change (version_number app_version) with 131%Z. cbn [higher]. lia.
Qed.
Print Assumptions C56_newer_single_digits_partial.

Definition release (version : bytes) : bytes :=
  b "[{""tag_name"":""" ++ version ++ b """,""body"":"""",""assets"":[]}]".

Example C56_example : exists info,
  snd (fetch_info (update_world [NetBody (release (b "2.0.9")) true])) = Ok (Val (Some info)) /\
  ui_version info = version_text [2; 0; 9]%N /\ ui_newer info = true.
Proof. eexists. split; [vm_compute; reflexivity|]. split; vm_compute; reflexivity. Qed.

(** In general it is not: the dots are dropped and the digits read as one number. Release 2.0 is
    not offered, 1.2.10 is. *)
Theorem C56_newer_refuted :
  (exists w info v, snd (fetch_info w) = Ok (Val (Some info)) /\ ui_version info = version_text v /\
     higher v [1; 3; 1]%N /\ ui_newer info = false) /\
  (exists w info v, snd (fetch_info w) = Ok (Val (Some info)) /\ ui_version info = version_text v /\
     higher [1; 3; 1]%N v /\ ui_newer info = true).
Proof.
  split.
  - exists (update_world [NetBody (release (b "2.0")) true]). eexists. exists [2; 0]%N.
    split; [vm_compute; reflexivity|]. split; [vm_compute; reflexivity|]. split; [cbn; lia|vm_compute; reflexivity].
  - exists (update_world [NetBody (release (b "1.2.10")) true]). eexists. exists [1; 2; 10]%N.
    split; [vm_compute; reflexivity|]. split; [vm_compute; reflexivity|]. split; [cbn; lia|vm_compute; reflexivity].
Qed.
Print Assumptions C56_newer_refuted.

(** ** C58 *)

(** An answer of the form the program expects. *)
Definition fine_release (j : json) : Prop := j = JNull \/ exists m text tag assets, j = JObj m /\
  has m (b "body") (JStr text) /\ has m (b "tag_name") (JStr tag) /\ has m (b "assets") (JArr assets) /\ Forall fine_asset assets.

Lemma jget_has k m : (forall v, v <> JNull -> jget k (Some m) = v <-> has m k v).
Proof.
  intros v Hv. unfold jget, has. destruct (mget k m) as [x|]; split; intros H; congruence.
Qed.

Lemma as_str_has k m : (exists s, as_str (jget k (Some m)) = Ok s /\ has m k (JStr s)) \/
  (as_str (jget k (Some m)) = Panic /\ forall s, ~ has m k (JStr s)).
Proof.
  unfold jget, has. destruct (mget k m) as [[| | |s| |]|]; cbn [as_str]; eauto; right; (split; [reflexivity|congruence]).
Qed.

Lemma as_arr_has k m : (exists l, as_arr (jget k (Some m)) = Ok l /\ has m k (JArr l)) \/
  (as_arr (jget k (Some m)) = Panic /\ forall l, ~ has m k (JArr l)).
Proof.
  unfold jget, has. destruct (mget k m) as [[| | | |l|]|]; cbn [as_arr]; eauto; right; (split; [reflexivity|congruence]).
Qed.

Lemma asset_urls_fine l : forall a c,
  (Forall fine_asset l -> exists r, asset_urls l a c = Ok r) /\ (~ Forall fine_asset l -> asset_urls l a c = Panic).
Proof.
  induction l as [|j l IH]; intros a c; cbn [asset_urls].
  - split; [eauto|]. intros H. elim H. constructor.
  - assert (Hstep : (fine_asset j /\ exists a' c', asset_urls (j :: l) a c = asset_urls l a' c') \/
                    (~ fine_asset j /\ asset_urls (j :: l) a c = Panic)).
    { cbn [asset_urls]. destruct j as [| | | | |m]; cbn [as_obj rbind];
        try (right; split; [intros (m & n & H & _); discriminate|reflexivity]).
      destruct (as_str_has (b "name") m) as [(name & -> & Hn)|[-> Hn]]; cbn [rbind].
      2:{ right. split; [|reflexivity]. intros (m' & n & [= <-] & H & _). exact (Hn _ H). }
      destruct (contains name (b ".tar.gz")) eqn:E1.
      { apply contains_spec in E1. destruct (as_str_has (b "browser_download_url") m) as [(u & -> & Hu)|[-> Hu]]; cbn [rbind].
        - left. split; [exists m, name; eauto|eauto].
        - right. split; [|reflexivity]. intros (m' & n & [= <-] & H & Hx). assert (n = name) by (unfold has in *; congruence). subst n.
          destruct (Hx (or_introl E1)) as [u Hu']. exact (Hu _ Hu'). }
      destruct (contains name (b ".md5")) eqn:E2.
      { apply contains_spec in E2. destruct (as_str_has (b "browser_download_url") m) as [(u & -> & Hu)|[-> Hu]]; cbn [rbind].
        - left. split; [exists m, name; eauto|eauto].
        - right. split; [|reflexivity]. intros (m' & n & [= <-] & H & Hx). assert (n = name) by (unfold has in *; congruence). subst n.
          destruct (Hx (or_intror E2)) as [u Hu']. exact (Hu _ Hu'). }
      left. split; [|eauto]. exists m, name. split; [reflexivity|]. split; [exact Hn|].
      intros [H|H]; apply contains_spec in H; congruence. }
    cbn [asset_urls] in Hstep. destruct Hstep as [(Hf & a' & c' & ->)|(Hf & ->)].
    + destruct (IH a' c') as [I1 I2]. split; intros H.
      * apply I1. now inversion H.
      * apply I2. intros Hl. apply H. now constructor.
    + split; intros H; [inversion H; contradiction|reflexivity].
Qed.

(** Looking for a release crashes in exactly these cases: the answer is an array that
    is empty or whose first element does not have the expected form. *)
Theorem C58_lookup_survives_partial : forall w,
  snd (fetch_info w) = Panic <->
  exists body l, answer w 0 body /\ unmarshal body = (Some (JArr l), true) /\
    ~ exists j rest, l = j :: rest /\ fine_release j.
Proof.
  intros w. unfold fetch_info, bind, http_get, answer. change github_releases with (b "https://api.github.com/repos/mashmb/1pass/releases").
  destruct (b "https://api.github.com/repos/mashmb/1pass/releases") as [|u0 us0] eqn:E; [discriminate|]. clear E.
  destruct (w_net w) as [|[|body [|]] rest]; cbn [nth_error snd ret lift].
  1,2,4: (split; [discriminate|intros (x & y & H & _); discriminate]).
  assert (G : read_releases body = Panic <-> exists l, unmarshal body = (Some (JArr l), true) /\
    ~ exists j rest, l = j :: rest /\ fine_release j).
  { unfold read_releases. destruct (unmarshal body) as [[j|] [|]];
      try (split; [discriminate|intros (l' & H & _); discriminate]).
    2:{ destruct j; split; try discriminate; intros (l' & H & _); discriminate. }
    destruct j as [| | | |l|]; try (split; [discriminate|intros (l' & H & _); discriminate]).
    destruct l as [|j l].
    { split; [|reflexivity]. intros _. exists []. split; [reflexivity|]. intros (j & r & H & _). discriminate. }
    assert (Hiff : forall x : res (eres (option update_info)), (fine_release j -> x <> Panic) -> (~ fine_release j -> x = Panic) ->
      (x = Panic <-> exists l0, (Some (JArr (j :: l)), true) = (Some (JArr l0), true) /\ ~ exists j0 r, l0 = j0 :: r /\ fine_release j0)).
    { intros x H1 H2. split.
      - intros Hx. exists (j :: l). split; [reflexivity|]. intros (j0 & r & [= -> ->] & Hj). now apply H1.
      - intros (l0 & [= <-] & Hn). apply H2. intros Hj. apply Hn. eauto. }
    apply Hiff; clear Hiff.
    - intros [->|(m & text & tag & assets & -> & H1 & H2 & H3 & H4)]; [discriminate|].
      cbn [as_obj rbind]. apply jget_has in H1, H2, H3; try discriminate. rewrite H1, H2, H3. cbn [as_str as_arr rbind].
      destruct (asset_urls_fine assets [] []) as [A1 _]. destruct (A1 H4) as [r ->]. discriminate.
    - intros Hn. destruct j as [| | | | |m]; try reflexivity; [elim Hn; now left|].
      cbn [as_obj rbind].
      destruct (as_str_has (b "body") m) as [(s1 & -> & K1)|[-> _]]; cbn [rbind]; [|reflexivity].
      destruct (as_str_has (b "tag_name") m) as [(s2 & -> & K2)|[-> _]]; cbn [rbind]; [|reflexivity].
      destruct (as_arr_has (b "assets") m) as [(assets & -> & E3)|[-> _]]; cbn [rbind]; [|reflexivity].
      destruct (asset_urls_fine assets [] []) as [_ A2]. rewrite A2; [reflexivity|].
      intros H4. apply Hn. right. exists m, s1, s2, assets. auto. }
  rewrite G. split.
  - intros (l & H1 & H2). exists body, l. auto.
  - intros (body' & l & [= <-] & H). exists l. exact H.
Qed.
Print Assumptions C58_lookup_survives_partial.

(** It never ends the program in another way. *)
Theorem C58_lookup_never_exits_partial : forall w n, snd (fetch_info w) <> Exit n.
Proof.
  intros w n. unfold fetch_info, bind, http_get. change github_releases with (b "https://api.github.com/repos/mashmb/1pass/releases").
  destruct (b "https://api.github.com/repos/mashmb/1pass/releases") as [|u0 us0] eqn:E; [discriminate|]. clear E.
  destruct (w_net w) as [|[|body [|]] rest]; cbn [snd ret lift]; try discriminate.
  unfold read_releases. destruct (unmarshal body) as [[[| | | |l|]|] [|]]; try discriminate.
  destruct l as [|j l]; [discriminate|].
  destruct j as [| | | | |m]; try discriminate. cbn [as_obj rbind].
  destruct (as_str_has (b "body") m) as [(s1 & -> & K1)|[-> _]]; cbn [rbind]; [|discriminate].
  destruct (as_str_has (b "tag_name") m) as [(s2 & -> & K2)|[-> _]]; cbn [rbind]; [|discriminate].
  destruct (as_arr_has (b "assets") m) as [(assets & -> & E3)|[-> _]]; cbn [rbind]; [|discriminate].
  destruct (asset_urls_fine assets [] []) as [A1 A2].
  destruct (asset_urls assets [] []) as [r| |k] eqn:Ea; [discriminate|discriminate|].
  exfalso. assert (Hnf : ~ Forall fine_asset assets) by (intros H; destruct (A1 H); discriminate).
  specialize (A2 Hnf). discriminate.
Qed.
Print Assumptions C58_lookup_never_exits_partial.

(** A project without releases is enough to crash it. *)
Theorem C58_lookup_crashes_refuted : exists w, answer w 0 (b "[]") /\ snd (fetch_info w) = Panic.
Proof. exists (update_world [NetBody (b "[]") true]). split; vm_compute; reflexivity. Qed.
Print Assumptions C58_lookup_crashes_refuted.

Example C58_example : exists j, unmarshal demo_release = (Some (JArr [j]), true) /\ fine_release j.
Proof.
  eexists. split; [vm_compute; reflexivity|]. right.
  eexists. eexists. eexists. eexists. split; [reflexivity|].
  split; [vm_compute; reflexivity|]. split; [vm_compute; reflexivity|]. split; [vm_compute; reflexivity|].
  repeat constructor; (eexists; eexists; split; [reflexivity|]; split; [vm_compute; reflexivity|]; intros _; eexists; vm_compute; reflexivity).
Qed.
