(** Properties of the vault directory and of the documents in it (C30-C34, C36,
    C37). *)
From Verif Require Import Base Utf8 GoStrings GoStringsProof Base64 Spec_Base64 Base64Proof Float64
  Float64Proof Json Spec_Json JsonProof JsonPrint Crypto Spec_Crypto CryptoProof Path Fs FsProof Domain
  DomainProof Spec_Domain KeyService Repos ItemService Spec_Item ItemProof Session SessionProof
  Spec_Vault VaultProof OpenProof Spec_Writer WriterProof Toy Properties_Vault.

(** ** C30: every member of every band file is read; for a uid that occurs twice the
    last one counts. *)
Lemma obj_of_last ms k v pre post :
  ms = pre ++ (k, v) :: post -> ~ In k (map fst post) -> mget k (obj_of ms) = Some v.
Proof.
  intros -> Hn. unfold obj_of. rewrite fold_left_app. cbn [fold_left fst snd].
  generalize (fold_left (fun (m : gmap json) kv => mset (fst kv) (snd kv) m) pre []) as acc. intros acc.
  assert (H0 : mget k (mset k v acc) = Some v) by (rewrite mget_mset, bytes_eqb_refl; reflexivity).
  revert H0. generalize (mset k v acc) as m. clear pre acc.
  induction post as [|[k' v'] post IH]; intros m Hm; [exact Hm|]. cbn [fold_left fst snd].
  apply IH.
  - intros Hin. apply Hn. now right.
  - rewrite mget_mset. destruct (bytes_eqb k k') eqn:E; [|exact Hm].
    apply bytes_eqb_eq in E. subst k'. exfalso. apply Hn. now left.
Qed.

Theorem C30_all_bands_read : forall C U tz O D path L bands password s s' pre uid e post,
  oracles_ok O -> vault_dir D path L -> plain_path path -> bands_at D L bands ->
  reachable C U tz s -> st_items s = None ->
  unlock C U tz O D path password s = Ok (s', None) ->
  (* the members of all bands, in the order of the band names *)
  concat (map snd bands) = pre ++ (uid, e) :: post -> ~ In uid (map fst post) -> known_entry e ->
  exists i, it_uid i = uid /\ entry_meta e i /\ get_item uid (it_trashed i) s' = Some i.
Proof.
  intros C U tz O D path L bands password s s' pre uid e post HO Hv Hp Hb Hs Hi Hu E Hn Hk.
  destruct (C18_one_item_per_entry C U tz O D path L bands password s s' HO Hv Hp Hb Hs Hi Hu) as [H _].
  destruct (H uid e (obj_of_last _ uid e pre post E Hn) Hk) as (i & Hm & Hui & Hg).
  exists i. split; [exact Hui|]. split; [exact Hm|]. rewrite Hg, Bool.eqb_reflx. reflexivity.
Qed.
Print Assumptions C30_all_bands_read.

(** The vault of Toy.v has two bands; [demo_opened] shows it opened. *)
Example C30_example : exists pre uid e post bands,
  bands_at demo_disk [b "v"] bands /\ length bands = 2 /\
  concat (map snd bands) = pre ++ (uid, e) :: post /\ ~ In uid (map fst post) /\ known_entry e.
Proof.
  destruct (written_layout toy_crypto (b "v") demo_dir_plain (b "freddy") demo_secrets demo_bands
    demo_secrets_ok demo_bands_ok) as (_ & _ & V3 & _).
  exists (write_members toy_crypto demo_keys [demo_login; demo_note]), (b "BB"),
    (write_entry toy_crypto demo_keys demo_card), [].
  exists (map (fun nb => (fst nb, write_members toy_crypto demo_keys (snd nb))) demo_bands).
  split; [exact V3|]. split; [reflexivity|]. split; [reflexivity|]. split; [intros []|].
  eexists. exists (b "002"). split; [reflexivity|]. split; [reflexivity|]. simpl. auto.
Qed.

(** ** The band files of a vault, whatever is in them *)
Record band_files (D : disk) (L : loc) (files : list (bytes * bytes)) : Prop := {
  bf_order : StronglySorted (fun x y => bytes_ltb x y = true) (map fst files);
  bf_all : forall n, In n (map fst files) <->
             band_name n /\ fs_get (d_fs D) (in_default n L) <> None;
  bf_text : Forall (fun nf => file_at D (in_default (fst nf) L) (snd nf)) files;
}.

Lemma band_files_contents D L files :
  band_files D L files -> bands_readable D L = true ->
  band_contents D L = map Some (map snd files).
Proof.
  intros [Ho Ha Ht] Hr. unfold band_contents. rewrite Hr.
  assert (E : band_names D L = map fst files).
  { apply sorted_names_unique; [apply band_names_sorted|exact Ho|].
    intros n. rewrite band_names_in. symmetry. apply Ha. }
  rewrite E. clear E Ho Ha Hr.
  induction Ht as [|[n c] files [(mode & Hf) Hu] Ht IH]; [reflexivity|].
  cbn [map fst snd]. f_equal; [|exact IH]. unfold content_at, in_default in *. cbn [fst snd] in Hf, Hu.
  change profile_dir with (b "default"). rewrite Hf, Hu. reflexivity.
Qed.

Lemma put_band_files dir profile files :
  plain_name dir ->
  StronglySorted (fun x y => bytes_ltb x y = true) (map fst files) ->
  Forall band_name (map fst files) ->
  band_files (put_disk dir profile files) [dir] files.
Proof.
  intros Hd Ho Hn. constructor; [exact Ho| |].
  - intros n. now apply put_disk_names.
  - apply Forall_forall. intros [n c] Hin. cbn [fst snd]. apply put_disk_file; auto.
    rewrite Forall_forall in Hn. apply Hn, in_map_iff. exists (n, c). auto.
Qed.

(** Opening a vault whose items cannot be loaded. *)
Lemma opening_fatal C U tz O D path L p password ks :
  vault_dir D path L -> plain_path path -> profile_at D L p -> crypto_ok C ->
  profile_for C password p ks ->
  load_contents O (band_contents D L) = fatal ->
  run C U tz (opening O D path password) init = Exit 1.
Proof.
  intros Hv Hp Hpr HC Hpf Hl. unfold opening. cbn [run step].
  rewrite (validate_at D path L p init Hv Hpr eq_refl). cbn [rbind fst snd].
  unfold unlock. cbn [st_profile]. rewrite (unlock_keys_for C HC password p ks Hpf). cbn [rbind].
  unfold decode_items. rewrite (load_items_contents O D path L), Hl; [reflexivity|apply Hv|].
  now apply plain_path_meta.
Qed.

(** The first element of a list with a property. *)
Lemma first_split {A} (P Q : A -> Prop) l :
  Forall (fun x => P x \/ Q x) l -> Exists Q l ->
  exists pre x post, l = pre ++ x :: post /\ Forall P pre /\ Q x.
Proof.
  intros H He. induction H as [|x l [Hx|Hx] H IH]; [inversion He| |].
  - inversion He as [? ? Hq|? ? Hq]; subst.
    + exists [], x, l. auto.
    + destruct (IH Hq) as (pre & y & post & -> & Hp & Hy). exists (x :: pre), y, post.
      split; [reflexivity|]. auto.
  - exists [], x, l. auto.
Qed.

Lemma band_text_len ms c : band_text ms c -> 7 <= length c.
Proof. intros (n & t & _ & _ & ->). rewrite !app_length. simpl. lia. Qed.

Lemma band_texts pre : Forall (fun c => exists ms, band_text ms c) pre -> exists mss, Forall2 band_text mss pre.
Proof.
  induction 1 as [|c pre (ms & H) Hp (mss & IH)]; [exists []; constructor|].
  exists (ms :: mss). now constructor.
Qed.

(** ** C31, refuted: a vault with an empty band among its bands cannot be opened: the
    program ends with an error on the right password. *)
Theorem C31_empty_band_refuted : forall C U tz O D path L p password ks files,
  crypto_ok C -> vault_dir D path L -> plain_path path -> profile_at D L p ->
  profile_for C password p ks -> band_files D L files ->
  Forall (fun nf => (exists ms, band_text ms (snd nf)) \/ snd nf = b "ld({});") files ->
  Exists (fun nf => snd nf = b "ld({});") files -> 2 <= length files ->
  run C U tz (opening O D path password) init = Exit 1.
Proof.
  intros C U tz O D path L p password ks files HC Hv Hp Hpr Hpf Hf Hall Hex Hlen.
  apply (opening_fatal C U tz O D path L p password ks Hv Hp Hpr HC Hpf).
  rewrite (band_files_contents D L files Hf (vault_dir_readable _ _ _ Hv)).
  destruct (first_split (fun nf => exists ms, band_text ms (snd nf)) (fun nf => snd nf = b "ld({});") files Hall Hex)
    as (pre & [n c] & post & E & Hpre & Hc). cbn [snd] in Hc. subst c.
  rewrite E, map_app in *. cbn [map snd].
  destruct (band_texts (map snd pre)) as (mss & Hm); [now apply Forall_map|].
  apply (empty_band_fatal O mss (map snd pre) (map snd post) Hm).
  - apply Forall_map. apply Forall_app in Hall. destruct Hall as [_ Hall].
    inversion Hall as [|? ? _ Hpost]; subst. eapply Forall_impl; [|exact Hpost].
    intros nf [(ms & H)|H]; [now apply band_text_len in H|]. rewrite H. simpl. lia.
  - rewrite app_length in Hlen. cbn [length] in Hlen.
    destruct pre; [right|left; discriminate]. destruct post; [simpl in Hlen; lia|discriminate].
Qed.
Print Assumptions C31_empty_band_refuted.

Example C31_example :
  let D := put_disk (b "v") (profile_text (write_profile toy_crypto (b "freddy") demo_secrets))
    [(b "band_0.js", write_band toy_crypto demo_keys [demo_login]); (b "band_1.js", b "ld({});")] in
  band_files D [b "v"]
    [(b "band_0.js", write_band toy_crypto demo_keys [demo_login]); (b "band_1.js", b "ld({});")] /\
  vault_dir D (b "/v") [b "v"] /\
  profile_at D [b "v"] (write_profile toy_crypto (b "freddy") demo_secrets) /\
  band_text (write_members toy_crypto demo_keys [demo_login]) (write_band toy_crypto demo_keys [demo_login]).
Proof.
  cbn zeta. split; [|split; [|split]].
  - apply (put_band_files (b "v") _ _ demo_dir_plain); [repeat constructor|].
    constructor; [apply (demo_name (b "0")); vm_compute; intuition discriminate|].
    constructor; [apply (demo_name (b "1")); vm_compute; intuition discriminate|constructor].
  - apply (put_disk_dir (b "v") demo_dir_plain).
  - eexists. split; [apply (write_profile_at toy_crypto), demo_secrets_ok|]. apply put_disk_profile.
  - apply write_band_text; [|discriminate]. assert (H := demo_storable). inversion H; subst. auto.
Qed.

(** What does hold: a vault whose only band is empty opens and shows nothing.
    (Missing: an empty band next to others.) *)
Theorem C31_only_empty_band_partial : forall C U tz O D path L p password ks n,
  crypto_ok C -> oracles_ok O -> vault_dir D path L -> plain_path path -> profile_at D L p ->
  profile_for C password p ks -> band_files D L [(n, b "ld({});")] ->
  exists s, run C U tz (opening O D path password) init = Ok (s, [RError None; RError None]) /\
    is_unlocked s = true /\ forall uid trashed, get_item uid trashed s = None.
Proof.
  intros C U tz O D path L p password ks n HC HO Hv Hp Hpr Hpf Hf.
  assert (Hl : load_items O D path = Ok []).
  { rewrite (load_items_contents O D path L); [|apply Hv|now apply plain_path_meta].
    rewrite (band_files_contents D L _ Hf (vault_dir_readable _ _ _ Hv)). now apply only_empty_band. }
  eexists. split; [apply opening_run; eexists; split|].
  - apply (validate_at D path L p init Hv Hpr eq_refl).
  - unfold unlock. cbn [st_profile]. rewrite (unlock_keys_for C HC password p ks Hpf). cbn [rbind].
    unfold decode_items. rewrite Hl. cbn [rbind rmap]. reflexivity.
  - split; [reflexivity|]. intros uid tr. reflexivity.
Qed.
Print Assumptions C31_only_empty_band_partial.

(** ** C32: only the profile and the band files matter: whatever else differs
    between two disks, the vault is validated and opened the same way. *)
Definition same_file (D : disk) (l : loc) (D' : disk) (l' : loc) : Prop :=
  fs_get (d_fs D) l = fs_get (d_fs D') l' /\ d_unreadable D l = d_unreadable D' l'.

Definition same_vault (D : disk) (L : loc) (D' : disk) (L' : loc) : Prop :=
  forall n, band_name n \/ n = b "profile.js" -> same_file D (in_default n L) D' (in_default n L').

Lemma same_load_profile D path L D' path' L' p :
  vault_dir D path L -> vault_dir D' path' L' -> same_vault D L D' L' ->
  load_profile D path p = load_profile D' path' p.
Proof.
  intros Hv Hv' Hs. destruct (Hs (b "profile.js") (or_intror eq_refl)) as [H1 H2].
  unfold load_profile, read_file. destruct p as [p|]; [reflexivity|].
  rewrite (resolve_profile D path L), (resolve_profile D' path' L') by (apply Hv || apply Hv').
  unfold is_dir. change profile_dir with (b "default"). change profile_file with (b "profile.js").
  rewrite (vd_dir _ _ _ Hv), (vd_default _ _ _ Hv), (vd_dir _ _ _ Hv'), (vd_default _ _ _ Hv'). cbn [andb].
  unfold in_default in *. rewrite <- H1.
  destruct (fs_get (d_fs D) (b "profile.js" :: b "default" :: L)) as [nd|] eqn:E; [|reflexivity].
  rewrite E, <- H1, <- H2. reflexivity.
Qed.

Lemma same_stat_profile D path L D' path' L' :
  vault_dir D path L -> vault_dir D' path' L' -> same_vault D L D' L' ->
  stat D (profile_path path) = stat D' (profile_path path').
Proof.
  intros Hv Hv' Hs. destruct (Hs (b "profile.js") (or_intror eq_refl)) as [H1 H2].
  unfold stat.
  rewrite (resolve_profile D path L), (resolve_profile D' path' L') by (apply Hv || apply Hv').
  unfold is_dir. change profile_dir with (b "default"). change profile_file with (b "profile.js").
  rewrite (vd_dir _ _ _ Hv), (vd_default _ _ _ Hv), (vd_dir _ _ _ Hv'), (vd_default _ _ _ Hv'). cbn [andb].
  unfold in_default in *. rewrite <- H1.
  destruct (fs_get (d_fs D) (b "profile.js" :: b "default" :: L)) as [nd|] eqn:E; [|reflexivity].
  congruence.
Qed.

Lemma same_load_items O D path L D' path' L' :
  vault_dir D path L -> plain_path path -> vault_dir D' path' L' -> plain_path path' ->
  same_vault D L D' L' -> load_items O D path = load_items O D' path'.
Proof.
  intros Hv Hp Hv' Hp' Hs.
  rewrite (load_items_contents O D path L), (load_items_contents O D' path' L');
    try (apply Hv || apply Hv'); try now apply plain_path_meta.
  f_equal. apply band_contents_ext; [now apply (vault_dir_readable D path)|now apply (vault_dir_readable D' path')|].
  intros n Hn. destruct (Hs n (or_introl Hn)) as [H1 H2]. unfold content_at. rewrite H1, H2. tauto.
Qed.

Theorem C32_other_files_ignored : forall C U tz O D D' path L password s,
  vault_dir D path L -> vault_dir D' path L -> plain_path path -> same_vault D L D' L ->
  validate D path s = validate D' path s /\
  unlock C U tz O D path password s = unlock C U tz O D' path password s.
Proof.
  intros C U tz O D D' path L password s Hv Hv' Hp Hs. split.
  - unfold validate. rewrite (same_stat_profile D path L D' path L Hv Hv' Hs).
    rewrite (same_load_profile D path L D' path L (st_profile s) Hv Hv' Hs).
    unfold stat. rewrite (vd_path _ _ _ Hv), (vd_dir _ _ _ Hv), (vd_path _ _ _ Hv'), (vd_dir _ _ _ Hv').
    reflexivity.
  - unfold unlock, decode_items. rewrite (same_load_items O D path L D' path L Hv Hp Hv' Hp Hs). reflexivity.
Qed.
Print Assumptions C32_other_files_ignored.

(** A folders file and an attachment next to the bands. *)
Definition cluttered : disk :=
  MkDisk (d_fs demo_disk ++
    [([b "folders.js"; b "default"; b "v"], NFile (b "loadFolders({});") 420%N);
     ([b "AA_1.attachment"; b "default"; b "v"], NFile (b "OPCLDAT") 420%N)]) [] (fun _ => false).

Example C32_example :
  vault_dir demo_disk (b "/v") [b "v"] /\ vault_dir cluttered (b "/v") [b "v"] /\
  same_vault demo_disk [b "v"] cluttered [b "v"] /\
  fs_get (d_fs demo_disk) [b "folders.js"; b "default"; b "v"] = None /\
  fs_get (d_fs cluttered) [b "folders.js"; b "default"; b "v"] <> None.
Proof.
  split; [apply (put_disk_dir (b "v") demo_dir_plain)|].
  split; [constructor; vm_compute; reflexivity|]. split; [|split; [vm_compute; reflexivity|vm_compute; discriminate]].
  intros n Hn. split; [|reflexivity]. unfold cluttered. cbn [d_fs].
  unfold in_default, fs_get. f_equal.
  assert (Hf : n <> b "folders.js" /\ n <> b "AA_1.attachment").
  { destruct Hn as [(x & -> & _)| -> ]; split; discriminate. }
  generalize (d_fs demo_disk) as f. intros f. induction f as [|[k v] f IH].
  - cbn [app find fst]. destruct Hf as [F1 F2].
    destruct (loc_eqb [b "folders.js"; b "default"; b "v"] [n; b "default"; b "v"]) eqn:E1.
    { apply loc_eqb_eq in E1. injection E1 as E1. exfalso. apply F1. now symmetry. }
    destruct (loc_eqb [b "AA_1.attachment"; b "default"; b "v"] [n; b "default"; b "v"]) eqn:E2.
    { apply loc_eqb_eq in E2. injection E2 as E2. exfalso. apply F2. now symmetry. }
    reflexivity.
  - cbn [app find fst]. destruct (loc_eqb k [n; b "default"; b "v"]); [reflexivity|exact IH].
Qed.

(** ** C33: where the vault is does not matter, as long as its path has none of the
    characters * ? [ \ .  (Missing: paths with them, see below.) *)
Theorem C33_any_path_partial : forall C U tz O D path L D' path' L' password,
  vault_dir D path L -> plain_path path -> vault_dir D' path' L' -> plain_path path' ->
  same_vault D L D' L' ->
  (exists c m, fs_get (d_fs D) (in_default (b "profile.js") L) = Some (NFile c m)) ->
  run C U tz (opening O D path password) init = run C U tz (opening O D' path' password) init.
Proof.
  intros C U tz O D path L D' path' L' password Hv Hp Hv' Hp' Hs (c & m & Hf).
  assert (E : validate D path init = validate D' path' init).
  { unfold validate. rewrite (same_stat_profile D path L D' path' L' Hv Hv' Hs).
    rewrite (same_load_profile D path L D' path' L' (st_profile init) Hv Hv' Hs).
    assert (St : stat D' (profile_path path') = Some (NFile c m)).
    { rewrite <- (same_stat_profile D path L D' path' L' Hv Hv' Hs). unfold stat.
      rewrite (resolve_profile D path L) by apply Hv.
      unfold is_dir. change profile_dir with (b "default"). change profile_file with (b "profile.js").
      rewrite (vd_dir _ _ _ Hv), (vd_default _ _ _ Hv). cbn [andb]. unfold in_default in Hf. rewrite Hf. exact Hf. }
    rewrite St. unfold stat.
    rewrite (vd_path _ _ _ Hv), (vd_dir _ _ _ Hv), (vd_path _ _ _ Hv'), (vd_dir _ _ _ Hv'). reflexivity. }
  unfold opening. cbn [run step]. rewrite E.
  destruct (validate D' path' init) as [[s1 e]| |]; cbn [rbind fst snd]; try reflexivity.
  unfold unlock, decode_items. rewrite (same_load_items O D path L D' path' L' Hv Hp Hv' Hp' Hs). reflexivity.
Qed.
Print Assumptions C33_any_path_partial.

Example C33_partial_example :
  let D' := write_disk toy_crypto (b "w") (b "freddy") demo_secrets demo_bands in
  vault_dir demo_disk (b "/v") [b "v"] /\ vault_dir D' (b "/w") [b "w"] /\
  same_vault demo_disk [b "v"] D' [b "w"].
Proof.
  assert (Hw : plain_name (b "w")).
  { split; [repeat split; discriminate|]. vm_compute. intuition discriminate. }
  cbn zeta. split; [apply (put_disk_dir (b "v") demo_dir_plain)|].
  split; [apply (put_disk_dir (b "w") Hw)|].
  intros n [Hn| -> ]; (split; [|reflexivity]).
  - unfold demo_disk, write_disk, in_default.
    change (n :: b "default" :: [b "v"]) with (at_default (b "v") n).
    change (n :: b "default" :: [b "w"]) with (at_default (b "w") n).
    rewrite !put_disk_get by exact Hn. reflexivity.
  - reflexivity.
Qed.

(** Refuted in general: every vault that is written, valid and complete, to the
    directory /v[1] opens without any of its items. *)
Lemma bracket_dir : plain_name (b "v[1]").
Proof. split; [repeat split; discriminate|]. vm_compute. intuition discriminate. Qed.

Lemma glob_bracket D :
  glob_in D [GLit "v"%char; GClass false [(49, 49)]%N] (b "/") = [] ->
  glob D (bands_glob (b "/v[1]")) = Some [].
Proof.
  intros H.
  transitivity (Some (flat_map (glob_in D band_toks)
    (flat_map (glob_in D (map GLit (b "default"))) (glob_in D [GLit "v"%char; GClass false [(49, 49)]%N] (b "/"))))).
  - generalize D. intros D'. reflexivity.
  - rewrite H. reflexivity.
Qed.

Lemma put_disk_root dir profile files n :
  In n (list_dir (d_fs (put_disk dir profile files)) []) -> n = dir.
Proof.
  rewrite list_dir_in. intros H. destruct (list_eq_dec Ascii.ascii_dec n dir) as [|Hn]; [assumption|].
  exfalso. apply H. unfold put_disk. cbn zeta. cbn [d_fs app].
  rewrite fs_get_tl by congruence. rewrite fs_get_tl by congruence. rewrite fs_get_tl by congruence.
  clear H. unfold fs_get. induction files as [|[k c] files IH]; [reflexivity|]. cbn [map find fst].
  destruct (loc_eqb [k; b "default"; dir] [n]) eqn:E; [|exact IH].
  apply loc_eqb_eq in E. congruence.
Qed.

Theorem C33_any_path_refuted : forall C U tz O password w bands,
  crypto_ok C -> oracles_ok O -> secrets_ok w -> bands_ok bands ->
  exists s, run C U tz (opening O (write_disk C (b "v[1]") password w bands) (b "/v[1]") password) init
            = Ok (s, [RError None; RError None]) /\
    is_unlocked s = true /\
    (forall uid trashed, get_item uid trashed s = None) /\
    (forall cat trashed, count_items cat trashed s = 0).
Proof.
  intros C U tz O password w bands HC HO Hw Hb.
  destruct (written_layout C (b "v[1]") bracket_dir password w bands Hw Hb) as (V1 & V2 & _ & _).
  set (D := write_disk C (b "v[1]") password w bands) in *.
  assert (Hl : load_items O D (b "/v[1]") = Ok []).
  { unfold load_items. rewrite glob_bracket; [reflexivity|]. unfold glob_in.
    change (resolve D (b "/")) with (Some (@nil bytes)). cbv iota.
    destruct (is_dir (d_fs D) [] && negb (d_unreadable D [])); [|reflexivity].
    assert (F : filter (match_toks [GLit "v"%char; GClass false [(49, 49)]%N]) (list_dir (d_fs D) []) = []).
    { assert (A : forall l, (forall n, In n l -> n = b "v[1]") ->
        filter (match_toks [GLit "v"%char; GClass false [(49, 49)]%N]) l = []).
      { induction l as [|x l IH]; intros H; [reflexivity|].
        assert (Hx := H x (or_introl eq_refl)). subst x. apply IH. intros n Hn. apply H. now right. }
      apply A. intros n Hn. exact (put_disk_root _ _ _ n Hn). }
    rewrite F. reflexivity. }
  eexists. split; [apply opening_run; eexists; split|].
  - apply (validate_at D (b "/v[1]") [b "v[1]"] (write_profile C password w) init V1 V2 eq_refl).
  - unfold unlock. cbn [st_profile].
    rewrite (unlock_keys_for C HC password _ (keys_of C password w)); [|now apply write_profile_for].
    cbn [rbind]. unfold decode_items. rewrite Hl. cbn [rbind rmap]. reflexivity.
  - split; [reflexivity|]. split; reflexivity.
Qed.
Print Assumptions C33_any_path_refuted.

Example C33_example : secrets_ok demo_secrets /\ bands_ok demo_bands /\ length (concat (map snd demo_bands)) = 3.
Proof. split; [exact demo_secrets_ok|]. split; [exact demo_bands_ok|reflexivity]. Qed.

(** ** C34, refuted: a line break at the end of a band file or of the profile, as
    editors and version control add it, ends the program. *)
Definition newline : bytes := ["010"%char].

Theorem C34_trailing_newline_band_refuted : forall C U tz O D path L p password ks files,
  crypto_ok C -> vault_dir D path L -> plain_path path -> profile_at D L p ->
  profile_for C password p ks -> band_files D L files ->
  Forall (fun nf => (exists ms, band_text ms (snd nf)) \/
                    (exists ms c, band_text ms c /\ snd nf = c ++ newline)) files ->
  Exists (fun nf => exists ms c, band_text ms c /\ snd nf = c ++ newline) files ->
  run C U tz (opening O D path password) init = Exit 1.
Proof.
  intros C U tz O D path L p password ks files HC Hv Hp Hpr Hpf Hf Hall Hex.
  apply (opening_fatal C U tz O D path L p password ks Hv Hp Hpr HC Hpf).
  rewrite (band_files_contents D L files Hf (vault_dir_readable _ _ _ Hv)).
  destruct (first_split _ _ files Hall Hex) as (pre & [n c] & post & E & Hpre & (ms & c0 & Hc & Ec)).
  cbn [snd] in Ec. subst c. rewrite E, map_app in *. cbn [map snd].
  destruct (band_texts (map snd pre)) as (mss & Hm); [now apply Forall_map|].
  apply (newline_band_fatal O mss (map snd pre) ms c0 (map snd post) Hm Hc).
  apply Forall_map. apply Forall_app in Hall. destruct Hall as [_ Hall].
  inversion Hall as [|? ? _ Hpost]; subst. eapply Forall_impl; [|exact Hpost].
  intros nf [(ms' & H)|(ms' & c' & H & E')]; [now apply band_text_len in H|].
  rewrite E', app_length. apply band_text_len in H. lia.
Qed.
Print Assumptions C34_trailing_newline_band_refuted.

Theorem C34_trailing_newline_profile_refuted : forall D path L p t s,
  vault_dir D path L -> json_doc (JObj p) t ->
  file_at D (in_default (b "profile.js") L) (b "var profile=" ++ t ++ b ";" ++ newline) ->
  st_profile s = None ->
  validate D path s = Exit 1.
Proof.
  intros D path L p t s Hv (n & w & t' & w' & Hn & Hw & Ht & Hw' & Et) [(mode & Hf) Hu] Hs.
  unfold validate, stat. rewrite (vd_path _ _ _ Hv), (vd_dir _ _ _ Hv).
  unfold load_profile, read_file. rewrite Hs.
  rewrite (resolve_profile D path L) by apply Hv.
  unfold is_dir. change profile_dir with (b "default"). change profile_file with (b "profile.js").
  rewrite (vd_dir _ _ _ Hv), (vd_default _ _ _ Hv). cbn [andb].
  unfold in_default in *. rewrite Hf. cbv iota. rewrite Hf, Hu. cbv iota.
  assert (Hl : length (b "var profile=" ++ t ++ b ";" ++ newline) = length t + 14).
  { rewrite !app_length. simpl. lia. }
  rewrite Hl. cbn zeta. destruct (Nat.ltb_spec (length t + 14) 13) as [Hx|_]; [lia|].
  replace (length t + 14 - 1 - 12) with (length (t ++ b ";")) by (rewrite app_length; simpl; lia).
  rewrite (skipn_app_exact (b "var profile=") _ 12) by reflexivity.
  rewrite (app_assoc t). rewrite (firstn_app_exact (t ++ b ";") newline) by reflexivity.
  subst t. rewrite <- !app_assoc.
  rewrite (unmarshal_trailing n p w t' (w' ++ b ";") Hn Hw Ht); [reflexivity|].
  rewrite skip_ws_app by exact Hw'. discriminate.
Qed.
Print Assumptions C34_trailing_newline_profile_refuted.

Example C34_example :
  let D := put_disk (b "v") (profile_text (write_profile toy_crypto (b "freddy") demo_secrets))
    [(b "band_0.js", write_band toy_crypto demo_keys [demo_login] ++ newline)] in
  band_files D [b "v"] [(b "band_0.js", write_band toy_crypto demo_keys [demo_login] ++ newline)] /\
  vault_dir D (b "/v") [b "v"] /\
  band_text (write_members toy_crypto demo_keys [demo_login]) (write_band toy_crypto demo_keys [demo_login]) /\
  json_doc (JObj (write_profile toy_crypto (b "freddy") demo_secrets))
    (print_json (JObj (write_profile toy_crypto (b "freddy") demo_secrets))).
Proof.
  cbn zeta. split; [|split; [|split]].
  - apply (put_band_files (b "v") _ _ demo_dir_plain); [repeat constructor|].
    constructor; [apply (demo_name (b "0")); vm_compute; intuition discriminate|constructor].
  - apply (put_disk_dir (b "v") demo_dir_plain).
  - apply write_band_text; [|discriminate]. assert (H := demo_storable). inversion H; subst. auto.
  - apply (write_profile_at toy_crypto), demo_secrets_ok.
Qed.

(** ** C36: Validate accepts exactly the directories with a file default/profile.js,
    and says what is wrong with others; refusing changes nothing. *)
Definition vault_layout (D : disk) (path : bytes) : Prop :=
  exists L, resolve D path = Some L /\ fs_get (d_fs D) L = Some NDir /\
    fs_get (d_fs D) (b "default" :: L) = Some NDir /\
    exists c m, fs_get (d_fs D) (in_default (b "profile.js") L) = Some (NFile c m).

Theorem C36_validate_exact : forall D path s,
  (vault_layout D path -> forall s' e, validate D path s <> Ok (s', Some e)) /\
  (~ vault_layout D path -> exists msg, validate D path s = Ok (s, Some (ErrInvalidVault msg)) /\
     ((stat D path = None /\ msg = path ++ b " is not a valid path") \/
      (exists c m, stat D path = Some (NFile c m) /\ msg = path ++ b " is not a directory") \/
      (exists L, resolve D path = Some L /\ fs_get (d_fs D) L = Some NDir /\
         ((exists p, msg = p ++ b " do not exist" /\
             (fs_get (d_fs D) (b "default" :: L) <> Some NDir \/
              fs_get (d_fs D) (in_default (b "profile.js") L) = None)) \/
          (exists p, msg = p ++ b " is not a file" /\
             fs_get (d_fs D) (in_default (b "profile.js") L) = Some NDir))))).
Proof.
  intros D path s. unfold validate, stat. split.
  - intros (L & Hr & Hd & Hdef & c & m & Hf) s' e.
    rewrite Hr, Hd. rewrite (resolve_profile D path L Hr).
    unfold is_dir. change profile_dir with (b "default"). change profile_file with (b "profile.js").
    rewrite Hd, Hdef. cbn [andb]. unfold in_default in Hf. rewrite Hf. cbv iota. rewrite Hf. cbv iota.
    destruct (load_profile D path (st_profile s)); cbn [rbind]; discriminate.
  - intros Hn. destruct (resolve D path) as [L|] eqn:Hr.
    2:{ eexists. split; [reflexivity|]. left. auto. }
    destruct (fs_get (d_fs D) L) as [[c m|]|] eqn:Hd.
    + eexists. split; [reflexivity|]. right. left. eauto.
    + rewrite (resolve_profile D path L Hr).
      unfold is_dir. change profile_dir with (b "default"). change profile_file with (b "profile.js").
      rewrite Hd. destruct (fs_get (d_fs D) (b "default" :: L)) as [[c m|]|] eqn:Hdef; cbn [andb].
      * eexists. split; [reflexivity|]. right. right. exists L. split; [reflexivity|]. split; [exact Hd|].
        left. eexists. split; [reflexivity|]. left. congruence.
      * destruct (fs_get (d_fs D) (b "profile.js" :: b "default" :: L)) as [[c m|]|] eqn:Hf.
        -- exfalso. apply Hn. exists L. split; [exact Hr|]. split; [exact Hd|]. split; [exact Hdef|].
           exists c, m. exact Hf.
        -- rewrite Hf. eexists. split; [reflexivity|]. right. right. exists L. split; [reflexivity|].
           split; [exact Hd|]. right. eexists. split; [reflexivity|]. exact Hf.
        -- eexists. split; [reflexivity|]. right. right. exists L. split; [reflexivity|].
           split; [exact Hd|]. left. eexists. split; [reflexivity|]. right. exact Hf.
      * eexists. split; [reflexivity|]. right. right. exists L. split; [reflexivity|]. split; [exact Hd|].
        left. eexists. split; [reflexivity|]. left. congruence.
    + eexists. split; [reflexivity|]. left. auto.
Qed.
Print Assumptions C36_validate_exact.

(** A layout with a readable, well-formed profile is accepted. *)
Theorem C36_valid_accepted : forall D path L p s,
  vault_dir D path L -> profile_at D L p -> exists s', validate D path s = Ok (s', None).
Proof.
  intros D path L p s Hv Hp. destruct (st_profile s) as [q|] eqn:Es.
  - unfold validate, stat, load_profile. rewrite Es. destruct Hp as (t & Ht & ((mode & Hf) & Hu)).
    rewrite (vd_path _ _ _ Hv), (vd_dir _ _ _ Hv), (resolve_profile D path L) by apply Hv.
    unfold is_dir. change profile_dir with (b "default"). change profile_file with (b "profile.js").
    rewrite (vd_dir _ _ _ Hv), (vd_default _ _ _ Hv). cbn [andb]. unfold in_default in Hf.
    rewrite Hf. cbv iota. rewrite Hf. cbn [rbind]. eauto.
  - rewrite (validate_at D path L p s Hv Hp Es). eauto.
Qed.
Print Assumptions C36_valid_accepted.

Example C36_example :
  vault_layout demo_disk (b "/v") /\ ~ vault_layout demo_disk (b "/w") /\
  ~ vault_layout demo_disk (b "/v/default").
Proof.
  split; [|split].
  - exists [b "v"]. split; [vm_compute; reflexivity|]. split; [vm_compute; reflexivity|].
    split; [vm_compute; reflexivity|]. eexists _, _. vm_compute. reflexivity.
  - intros (L & Hr & _). vm_compute in Hr. discriminate.
  - intros (L & Hr & _ & Hd & _). vm_compute in Hr. injection Hr as <-. vm_compute in Hd. discriminate.
Qed.

(** ** C37, refuted: parts of an item's document are never shown.  A document has
    sections or form fields or both; when it has sections, whatever its form
    fields are makes no difference to what is shown.  Nor does any other part,
    such as the top-level "password" of a Password item. *)
Definition with_detail (k : bytes) (v : json) (x : stored) : stored :=
  MkStored (w_uid x) (w_code x) (w_created x) (w_updated x) (w_trashed x) (w_overview x)
           (mset k v (w_details x)) (w_key x) (w_mac x).

Definition unseen (k : bytes) (x : stored) : Prop :=
  k <> b "sections" /\ k <> b "notesPlain" /\
  (k = b "fields" -> exists l, mget (b "sections") (w_details x) = Some (JArr l)).

Lemma mget_mset_other {V} k k' (v : V) m : k <> k' -> mget k (mset k' v m) = mget k m.
Proof. intros H. rewrite mget_mset. apply bytes_eqb_neq in H. now rewrite H. Qed.

Lemma unseen_shown U tz k v x i : unseen k x -> shown_as U tz x i -> shown_as U tz (with_detail k v x) i.
Proof.
  intros (H1 & H2 & H3) [E1 E2 E3 E4 E5 E6 E7 E8]. constructor; cbn [with_detail w_uid w_code w_created
    w_updated w_trashed w_overview w_details]; auto.
  - unfold text_of, absent, has_str in *. rewrite mget_mset_other by congruence. exact E7.
  - inversion E8 as [m l ss Hs Hl|m l fs Hs Hf Hl|m Hs Hf]; subst.
    + apply (shows_body_sections U tz _ l); [|exact Hl]. rewrite mget_mset_other by congruence. exact Hs.
    + assert (Hk : k <> b "fields").
      { intros E. destruct (H3 E) as (l' & Hl'). destruct Hs; congruence. }
      apply (shows_body_form U tz _ l fs); [| |exact Hl].
      * unfold absent in *. rewrite mget_mset_other by congruence. exact Hs.
      * rewrite mget_mset_other by congruence. exact Hf.
    + assert (Hk : k <> b "fields").
      { intros E. destruct (H3 E) as (l' & Hl'). destruct Hs; congruence. }
      apply shows_body_none; unfold absent in *; rewrite mget_mset_other by congruence; assumption.
Qed.

Definition with_details (k : bytes) (v : bytes -> json) (bands : list (bytes * list stored)) :=
  map (fun nb => (fst nb, map (fun x => with_detail k (v (w_uid x)) x) (snd nb))) bands.

Theorem C37_every_field_shown_refuted : forall C U, crypto_ok C -> unicode_ok U ->
  forall tz O password w bands items k v,
  oracles_ok O -> secrets_ok w -> bands_ok bands -> bands_ok (with_details k v bands) ->
  Forall2 (shown_as U tz) (concat (map snd bands)) items ->
  Forall (unseen k) (concat (map snd bands)) ->
  exists s s',
    run C U tz (opening O (write_disk C (b "v") password w bands) (b "/v") password) init
      = Ok (s, [RError None; RError None]) /\
    run C U tz (opening O (write_disk C (b "v") password w (with_details k v bands)) (b "/v") password) init
      = Ok (s', [RError None; RError None]) /\
    (forall uid trashed, get_item uid trashed s = get_item uid trashed s') /\
    (forall i, In i items -> get_item (it_uid i) (it_trashed i) s = Some i).
Proof.
  intros C U HC HU tz O password w bands items k v HO Hw Hb Hb' Hs Hu.
  assert (Hp : plain_path (b "v")) by (repeat (constructor; [vm_compute; intuition discriminate|]); constructor).
  assert (Hs' : Forall2 (shown_as U tz) (concat (map snd (with_details k v bands))) items).
  { assert (E : concat (map snd (with_details k v bands)) =
                map (fun x => with_detail k (v (w_uid x)) x) (concat (map snd bands))).
    { unfold with_details. rewrite map_map. cbn [snd]. rewrite concat_map, map_map. reflexivity. }
    rewrite E. clear -Hs Hu. induction Hs as [|x i l items H Hs IH]; [constructor|].
    inversion Hu as [|? ? Hx Hl]; subst. cbn [map]. constructor; [now apply unseen_shown|auto]. }
  assert (V := written_vault C HC U tz (b "v") demo_dir_plain password w bands items Hp Hw Hb Hs).
  assert (V' := written_vault C HC U tz (b "v") demo_dir_plain password w _ items Hp Hw Hb' Hs').
  destruct (C16_items_decoded C U HC HU tz O _ (b "/v") password _ items HO V) as (s & R & F & G & _).
  destruct (C16_items_decoded C U HC HU tz O _ (b "/v") password _ items HO V') as (s' & R' & F' & G' & _).
  exists s, s'. split; [exact R|]. split; [exact R'|]. split; [|exact F].
  intros uid tr. destruct (get_item uid tr s) as [i|] eqn:E.
  - apply G in E. destruct E as (Hi & <- & <-). symmetry. now apply F'.
  - destruct (get_item uid tr s') as [i|] eqn:E'; [|reflexivity].
    apply G' in E'. destruct E' as (Hi & <- & <-). rewrite (F i Hi) in E. discriminate.
Qed.
Print Assumptions C37_every_field_shown_refuted.

(** The credit card of Toy.v with form fields added, and a password. *)
Example C37_example :
  let form := JArr [JObj [(b "name", JStr (b "user")); (b "value", JStr (b "bob"))]] in
  unseen (b "fields") demo_card /\ Forall (unseen (b "password")) (concat (map snd demo_bands)) /\
  storable (with_detail (b "fields") form demo_card) /\
  bands_ok (with_details (b "password") (fun _ => JStr (b "secret")) demo_bands).
Proof.
  cbn zeta. split; [|split; [|split]].
  - split; [discriminate|]. split; [discriminate|]. intros _. eexists. reflexivity.
  - cbn [demo_bands map snd concat app]. repeat apply Forall_cons; [| | |constructor];
      (split; [discriminate|]; split; [discriminate|]; discriminate).
  - constructor;
      [ apply ascii_valid_utf8; reflexivity | simpl; auto 8 | unfold in_2_53; simpl; lia
      | unfold in_2_53; simpl; lia | split; reflexivity | | split; reflexivity ].
    exists 5; split; [vm_compute; discriminate|]; split; printables.
  - constructor.
    + repeat constructor.
    + assert (H := demo_bands_ok). destruct H as [_ Hn _ _].
      inversion Hn as [|? ? [N1 _] Hn1]; subst. inversion Hn1 as [|? ? [N2 _] _]; subst.
      repeat apply Forall_cons; [| |constructor]; (split; [|discriminate]); assumption.
    + apply nodupb_ok. reflexivity.
    + cbn [demo_bands with_details map fst snd concat app]. repeat apply Forall_cons; [| | |constructor].
      all: constructor;
        [ apply ascii_valid_utf8; reflexivity | simpl; auto 8 | unfold in_2_53; simpl; lia
        | unfold in_2_53; simpl; lia | split; reflexivity | | split; reflexivity ].
      all: exists 5; split; [vm_compute; discriminate|]; split; printables.
Qed.

(** What does hold: every field with a value, of every section, is shown in a
    section, and so is every non-empty field of a form when there are no
    sections.  (Missing: form fields next to sections, other parts.) *)
Lemma shows_list_in {A B} (R : A -> list B -> Prop) l ys x :
  shows_list R l ys -> In x l -> exists zs, R x zs /\ forall z, In z zs -> In z ys.
Proof.
  intros H. induction H as [|a l zs ys Ha H IH]; intros Hin; [destruct Hin|].
  destruct Hin as [->|Hin].
  - exists zs. split; [exact Ha|]. intros z Hz. apply in_or_app. auto.
  - destruct (IH Hin) as (us & Hu & Hs). exists us. split; [exact Hu|]. intros z Hz. apply in_or_app. auto.
Qed.

Theorem C37_fields_shown_partial : forall C U, crypto_ok C -> unicode_ok U ->
  forall tz O password w bands items x,
  oracles_ok O -> secrets_ok w -> bands_ok bands ->
  Forall2 (shown_as U tz) (concat (map snd bands)) items ->
  In x (concat (map snd bands)) ->
  exists s i,
    run C U tz (opening O (write_disk C (b "v") password w bands) (b "/v") password) init
      = Ok (s, [RError None; RError None]) /\
    get_item (w_uid x) (w_trashed x) s = Some i /\
    (* fields of sections *)
    (forall sections sm fields fm v k t,
       mget (b "sections") (w_details x) = Some (JArr sections) -> In (JObj sm) sections ->
       mget (b "fields") sm = Some (JArr fields) -> In (JObj fm) fields ->
       mget (b "v") fm = Some v -> v <> JNull -> has_str (b "k") fm k -> has_str (b "t") fm t ->
       exists sec text, In sec (it_sections i) /\ In (MkField (title U t) text) (sec_fields sec) /\
                        shows_value U tz k v text) /\
    (* fields of a form *)
    (forall fields fm name value,
       absent (b "sections") (w_details x) ->
       mget (b "fields") (w_details x) = Some (JArr fields) -> In (JObj fm) fields ->
       has_str (b "name") fm name -> has_str (b "value") fm value -> name <> [] -> value <> [] ->
       exists sec, In sec (it_sections i) /\ In (MkField (title U name) value) (sec_fields sec)) /\
    (* notes *)
    (forall notes, has_str (b "notesPlain") (w_details x) notes -> it_notes i = notes).
Proof.
  intros C U HC HU tz O password w bands items x HO Hw Hb Hs Hx.
  assert (Hp : plain_path (b "v")) by (repeat (constructor; [vm_compute; intuition discriminate|]); constructor).
  assert (V := written_vault C HC U tz (b "v") demo_dir_plain password w bands items Hp Hw Hb Hs).
  destruct (C16_items_decoded C U HC HU tz O _ (b "/v") password _ items HO V) as (s & R & F & _ & _).
  assert (Hi : exists i, In i items /\ shown_as U tz x i).
  { clear -Hs Hx. induction Hs as [|y i l items H Hs IH]; [destruct Hx|].
    destruct Hx as [->|Hx]; [exists i; split; [now left|exact H]|].
    destruct (IH Hx) as (j & Hj & Hj'). exists j. split; [now right|exact Hj']. }
  destruct Hi as (i & Hi & [E1 E2 E3 E4 E5 E6 E7 E8]). exists s, i. split; [exact R|].
  split; [rewrite <- E1, <- E4; now apply F|]. split; [|split].
  - intros sections sm fields fm v k t H1 H2 H3 H4 H5 H6 H7 H8.
    inversion E8 as [m l ss Hsec Hl|m l fs Ha Hf Hl|m Ha Hf]; subst.
    2,3: exfalso; destruct Ha; congruence.
    assert (Es : l = sections) by congruence. subst l.
    destruct (shows_list_in _ _ _ (JObj sm) Hl H2) as (zs & Hz & Hin).
    assert (Hfs : forall fs, shows_fields U tz sm fs ->
      exists text, In (MkField (title U t) text) fs /\ shows_value U tz k v text).
    { intros fs Hfs. inversion Hfs as [m Ha|m l fs' Hm Hl']; subst; [destruct Ha; congruence|].
      assert (El : l = fields) by congruence. subst l.
      destruct (shows_list_in _ _ _ (JObj fm) Hl' H4) as (us & Hu & Hus).
      inversion Hu as [m Ha|m k' t' v' text Hk' Ht' Hv' Hsv]; subst; [destruct Ha; congruence|].
      unfold has_str in *. assert (k' = k) by congruence. assert (t' = t) by congruence.
      assert (v' = v) by congruence. subst k' t' v'.
      exists text. split; [apply Hus; now left|exact Hsv]. }
    inversion Hz as [m Ht Hf|m tt fs Ht Hf Hne]; subst.
    + destruct (Hfs [] Hf) as (text & [] & _).
    + destruct (Hfs fs Hf) as (text & Hin' & Hsv). exists (MkSection tt fs), text.
      split; [apply Hin; now left|]. split; [exact Hin'|exact Hsv].
  - intros fields fm name value Ha H1 H2 H3 H4 H5 H6.
    inversion E8 as [m l ss Hsec Hl|m l fs Ha' Hf Hl|m Ha' Hf]; subst.
    + exfalso; destruct Ha; congruence.
    + assert (El : l = fields) by congruence. subst l.
      destruct (shows_list_in _ _ _ (JObj fm) Hl H2) as (us & Hu & Hus).
      inversion Hu as [m Hab|m n' v' Hn' Hv' Hne|m n' v' Hn' Hv' _ _]; subst; unfold has_str in *.
      * exfalso. destruct Hab as [Hab|Hab]; destruct Hab; congruence.
      * exfalso. assert (n' = name) by congruence. assert (v' = value) by congruence. subst. tauto.
      * assert (n' = name) by congruence. assert (v' = value) by congruence. subst n' v'.
        assert (Hin := Hus _ (or_introl eq_refl)).
        destruct fs as [|f0 fs]; [destruct Hin|].
        exists (MkSection [] (f0 :: fs)). split; [now left|exact Hin].
    + exfalso; destruct Hf; congruence.
  - intros notes Hn. destruct E7 as [[Ha _]|E7]; unfold has_str in *.
    + destruct Ha; congruence.
    + congruence.
Qed.
Print Assumptions C37_fields_shown_partial.
