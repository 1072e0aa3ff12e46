(** Reading a vault from a disk: layout, profile, bands, items. *)
From Verif Require Import Base Utf8 GoStrings GoStringsProof Base64 Spec_Base64 Base64Proof Float64
  Float64Proof Json Spec_Json JsonProof Crypto Spec_Crypto CryptoProof Path Fs FsProof Domain
  DomainProof Spec_Domain KeyService Repos ItemService Spec_Item ItemProof Session SessionProof
  Spec_Vault.

(** ** Paths *)

Lemma plain_path_meta p : plain_path p <-> has_meta p = false.
Proof.
  unfold plain_path. induction p as [|c p IH]; simpl.
  - split; [reflexivity|constructor].
  - rewrite orb_false_iff, <- IH, Forall_cons_iff. unfold is_meta.
    rewrite !orb_false_iff, !Ascii.eqb_neq. simpl. intuition congruence.
Qed.

Lemma default_plain : plain_name profile_dir.
Proof.
  split; [repeat split; discriminate|]. vm_compute. intuition discriminate.
Qed.

Lemma profile_file_plain : plain_name profile_file.
Proof.
  split; [repeat split; discriminate|]. vm_compute. intuition discriminate.
Qed.

Lemma band_pattern_plain : plain_name band_pattern.
Proof.
  split; [repeat split; discriminate|]. vm_compute. intuition discriminate.
Qed.

Lemma walk_two f L n1 n2 :
  normal n1 -> normal n2 ->
  walk f L [n1; n2] =
  if is_dir f L && is_dir f (n1 :: L) then
    match fs_get f (n2 :: n1 :: L) with Some _ => Some (n2 :: n1 :: L) | None => None end
  else None.
Proof.
  intros H1 H2. change [n1; n2] with ([n1] ++ [n2]). rewrite walk_app, walk_normal by exact H1.
  unfold is_dir at 1 2. destruct (fs_get f L) as [[c m|]|]; cbn [andb]; try reflexivity.
  destruct (fs_get f (n1 :: L)) as [nd|] eqn:E; [|unfold is_dir; rewrite E; reflexivity].
  rewrite walk_normal by exact H2. reflexivity.
Qed.

Lemma resolve_profile D vault L :
  resolve D vault = Some L ->
  resolve D (profile_path vault) =
  if is_dir (d_fs D) L && is_dir (d_fs D) (profile_dir :: L) then
    match fs_get (d_fs D) (profile_file :: profile_dir :: L) with
    | Some _ => Some (profile_file :: profile_dir :: L)
    | None => None
    end
  else None.
Proof.
  intros H. unfold profile_path. rewrite (resolve_join D vault L); auto.
  - apply walk_two; [apply default_plain|apply profile_file_plain].
  - discriminate.
  - auto using default_plain, profile_file_plain.
Qed.

(** ** Band files *)

Definition content_at (D : disk) (l : loc) : option bytes :=
  match fs_get (d_fs D) l with
  | Some (NFile c _) => if d_unreadable D l then None else Some c
  | _ => None
  end.

Definition band_names (D : disk) (L : loc) : list bytes :=
  filter (match_toks band_toks) (list_dir (d_fs D) (profile_dir :: L)).

Definition bands_readable (D : disk) (L : loc) : bool :=
  is_dir (d_fs D) L && is_dir (d_fs D) (profile_dir :: L) && negb (d_unreadable D (profile_dir :: L)).

Definition band_contents (D : disk) (L : loc) : list (option bytes) :=
  if bands_readable D L then
    map (fun n => content_at D (n :: profile_dir :: L)) (band_names D L)
  else [].

Fixpoint cat_bands (cs : list (option bytes)) : res bytes :=
  match cs with
  | [] => Ok []
  | None :: _ => fatal
  | Some file :: cs' =>
      let n := length file in
      if n <? 7 then Panic
      else rbind (cat_bands cs') (fun rest => Ok (firstn (n - 3 - 4) (skipn 4 file) ++ ","%char :: rest))
  end.

Lemma read_bands_contents D files : read_bands D files = cat_bands (map (read_file D) files).
Proof.
  induction files as [|f fl IH]; [reflexivity|]. cbn [read_bands map cat_bands].
  destruct (read_file D f); [|reflexivity]. cbn zeta. rewrite IH. reflexivity.
Qed.

Definition load_contents (O : oracles) (cs : list (option bytes)) : res (list raw_item) :=
  match cs with
  | [] => Ok []
  | _ =>
      rbind (cat_bands cs) (fun text =>
      match unmarshal_map (removelast ("{"%char :: text) ++ b "}") with
      | (_, false) => fatal
      | (None, true) => Ok []
      | (Some m, true) => rmap raw_of_entry (o_iter O m)
      end)
  end.

Lemma join_default_nonempty vault :
  vault <> [] -> join_path [vault; profile_dir] <> [] /\ join_path [vault; profile_dir] <> [slash].
Proof.
  intros Hv. rewrite join_path_text; [|exact Hv|discriminate|auto using default_plain].
  set (es := clean_elems _ _ _). destruct es as [|e es].
  - destruct (rooted vault); split; discriminate.
  - assert (E : exists x, join_slash ((e :: es) ++ [profile_dir]) = x ++ slash :: profile_dir).
    { exists (join_slash (e :: es)). apply join_slash_snoc. discriminate. }
    destruct E as (x & E). rewrite E.
    assert (H1 : x ++ slash :: profile_dir <> []) by (destruct x; discriminate).
    assert (H2 : 2 <= length (x ++ slash :: profile_dir)).
    { rewrite app_length. simpl. lia. }
    destruct (rooted vault); split; try discriminate; try exact H1.
    + intros Hc. injection Hc as Hc. now apply H1.
    + intros Hc. rewrite Hc in H2. simpl in H2. lia.
Qed.

Lemma glob_bands D vault L :
  resolve D vault = Some L -> has_meta vault = false ->
  exists files, glob D (bands_glob vault) = Some files /\
    map (read_file D) files = band_contents D L.
Proof.
  intros Hr Hm.
  assert (Hv : vault <> []) by (destruct vault; [discriminate|congruence]).
  destruct (join_default_nonempty vault Hv) as [Hd1 Hd2].
  set (dir := join_path [vault; profile_dir]) in *.
  assert (Hdir : resolve D dir = walk (d_fs D) L [profile_dir]).
  { apply resolve_join; auto using default_plain. discriminate. }
  exists (glob_in D band_toks dir). split.
  - unfold bands_glob.
    replace (join_path [vault; profile_dir; band_pattern]) with (dir ++ slash :: band_pattern).
    + apply glob_plain; auto.
      * apply join_path_meta; auto using default_plain; try discriminate.
      * apply band_pattern_plain.
    + unfold dir. symmetry. apply (join_path_snoc vault [profile_dir] band_pattern);
        auto using default_plain, band_pattern_plain. discriminate.
  - unfold glob_in, band_contents, bands_readable.
    rewrite Hdir. rewrite walk_normal by apply default_plain.
    destruct (is_dir (d_fs D) L) eqn:E1; [|reflexivity]. cbn [andb].
    destruct (fs_get (d_fs D) (profile_dir :: L)) as [nd|] eqn:E2.
    2:{ unfold is_dir. rewrite E2. reflexivity. }
    destruct (is_dir (d_fs D) (profile_dir :: L)) eqn:E3; [|reflexivity]. cbn [andb].
    destruct (d_unreadable D (profile_dir :: L)) eqn:E4; [reflexivity|]. cbn [negb].
    rewrite map_map. apply map_ext_in. intros n Hn. unfold band_names in Hn.
    apply filter_In in Hn. destruct Hn as [Hn1 Hn2].
    apply band_name_plain in Hn2. apply list_dir_in in Hn1.
    assert (Hdir' : resolve D dir = Some (profile_dir :: L)).
    { rewrite Hdir, walk_normal by apply default_plain. now rewrite E1, E2. }
    unfold read_file. rewrite (resolve_join D dir (profile_dir :: L)); auto; [|discriminate].
    rewrite walk_normal by apply Hn2. rewrite E3.
    destruct (fs_get (d_fs D) (n :: profile_dir :: L)) eqn:E5; [|congruence].
    unfold content_at. rewrite E5. reflexivity.
Qed.

(** What is loaded depends on nothing but the contents of the band files. *)
Lemma load_items_contents O D vault L :
  resolve D vault = Some L -> has_meta vault = false ->
  load_items O D vault = load_contents O (band_contents D L).
Proof.
  intros Hr Hm. destruct (glob_bands D vault L Hr Hm) as (files & Hg & Hc).
  unfold load_items. rewrite Hg. rewrite <- Hc.
  destruct files as [|f fl]; [reflexivity|].
  rewrite read_bands_contents. reflexivity.
Qed.

Lemma band_name_match n : band_name n <-> match_toks band_toks n = true.
Proof.
  rewrite match_band. unfold band_name, no_slash, slash. reflexivity.
Qed.

Lemma band_names_in D L n :
  In n (band_names D L) <-> band_name n /\ fs_get (d_fs D) (in_default n L) <> None.
Proof.
  unfold band_names. rewrite filter_In, <- band_name_match, list_dir_in. unfold in_default. tauto.
Qed.

Lemma band_names_sorted D L : StronglySorted name_lt (band_names D L).
Proof. apply filter_sorted, list_dir_sorted. Qed.

(** Same band files, same contents. *)
Lemma band_contents_ext D L D' L' :
  bands_readable D L = true -> bands_readable D' L' = true ->
  (forall n, band_name n ->
     content_at D (in_default n L) = content_at D' (in_default n L') /\
     (fs_get (d_fs D) (in_default n L) = None <-> fs_get (d_fs D') (in_default n L') = None)) ->
  band_contents D L = band_contents D' L'.
Proof.
  intros H1 H2 H. unfold band_contents. rewrite H1, H2.
  assert (E : band_names D L = band_names D' L').
  { apply sorted_names_unique; try apply band_names_sorted.
    intros n. rewrite !band_names_in. split; intros [Hb Hn]; (split; [exact Hb|]);
      destruct (H n Hb) as [_ Hi]; tauto. }
  rewrite <- E. apply map_ext_in. intros n Hn. apply band_names_in in Hn.
  apply H, Hn.
Qed.

(** ** Depth of members *)

Lemma json_text_mono :
  (forall n v t, json_text n v t -> forall n', n <= n' -> json_text n' v t) /\
  (forall n l t, elems_text n l t -> forall n', n <= n' -> elems_text n' l t) /\
  (forall n ms t, members_text n ms t -> forall n', n <= n' -> members_text n' ms t).
Proof.
  apply json_text_all; intros.
  - constructor.
  - constructor.
  - constructor.
  - now constructor.
  - now constructor.
  - destruct n' as [|n']; [lia|]. now constructor.
  - destruct n' as [|n']; [lia|]. constructor. apply H0. lia.
  - destruct n' as [|n']; [lia|]. now constructor.
  - destruct n' as [|n']; [lia|]. constructor. apply H0. lia.
  - constructor; auto.
  - constructor; auto.
  - constructor; auto.
  - constructor; auto.
Qed.

Lemma members_text_mono n n' ms t : n <= n' -> members_text n ms t -> members_text n' ms t.
Proof. intros Hl H. now apply (proj2 (proj2 json_text_mono) n ms t H). Qed.

(** ** The joined bands *)

Lemma cat_bands_text mss cs :
  Forall2 band_text mss cs -> cs <> [] ->
  exists n t, (N.of_nat n <= 9999)%N /\ members_text n (concat mss) t /\
              cat_bands (map Some cs) = Ok (t ++ [","%char]).
Proof.
  intros H. induction H as [|ms c mss cs Hc H IH]; intros Hne; [congruence|].
  destruct Hc as (n & t & Hn & Ht & ->). cbn [map cat_bands].
  assert (Hl : length (b "ld({" ++ t ++ b "});") = length t + 7).
  { rewrite !app_length. simpl. lia. }
  cbn zeta. rewrite Hl. destruct (Nat.ltb_spec (length t + 7) 7) as [Hx|_]; [lia|].
  replace (length t + 7 - 3 - 4) with (length t) by lia.
  rewrite (skipn_app_exact (b "ld({") _ 4) by reflexivity.
  rewrite firstn_app_exact by reflexivity.
  destruct cs as [|c2 cs].
  - inversion H; subst. exists n, t. simpl. rewrite app_nil_r. auto.
  - destruct IH as (n2 & t2 & Hn2 & Ht2 & E); [discriminate|].
    exists (Nat.max n n2), (t ++ ","%char :: t2).
    split; [lia|]. split.
    + cbn [concat]. apply members_text_app;
        [apply (members_text_mono n)|apply (members_text_mono n2)]; auto; lia.
    + rewrite E. cbn [rbind]. rewrite <- app_assoc. reflexivity.
Qed.

Lemma load_contents_bands O mss cs :
  Forall2 band_text mss cs ->
  load_contents O (map Some cs) =
  match cs with [] => Ok [] | _ => rmap raw_of_entry (o_iter O (obj_of (concat mss))) end.
Proof.
  intros H. destruct cs as [|c cs]; [reflexivity|].
  destruct (cat_bands_text _ _ H) as (n & t & Hn & Ht & E); [discriminate|].
  unfold load_contents. cbn [map]. cbn [map] in E. rewrite E. cbn [rbind].
  change ("{"%char :: t ++ [","%char]) with (("{"%char :: t) ++ [","%char]).
  rewrite removelast_snoc.
  rewrite (unmarshal_map_doc (obj_of (concat mss))); [reflexivity|].
  exists (S n), [], ("{"%char :: t ++ ["}"%char]), [].
  split; [lia|]. split; [constructor|]. split; [now constructor|]. split; [constructor|].
  simpl. now rewrite app_nil_r.
Qed.

Lemma bands_at_contents D L bands :
  bands_at D L bands -> bands_readable D L = true ->
  exists cs, band_contents D L = map Some cs /\ Forall2 band_text (map snd bands) cs.
Proof.
  intros [Ho Ha Ht] Hr. unfold band_contents. rewrite Hr.
  assert (E : band_names D L = map fst bands).
  { apply sorted_names_unique; [apply band_names_sorted|exact Ho|].
    intros n. rewrite band_names_in. symmetry. apply Ha. }
  rewrite E. clear E Ho Ha Hr.
  induction Ht as [|[n ms] bands (c & [(mode & Hf) Hu] & Hb) Ht IH].
  - exists []. split; [reflexivity|constructor].
  - destruct IH as (cs & E & H). exists (c :: cs). cbn [map fst snd]. split; [|now constructor].
    f_equal; [|exact E]. unfold content_at, in_default in *. cbn [fst] in Hf, Hu.
    change profile_dir with (b "default"). rewrite Hf, Hu. reflexivity.
Qed.

Lemma vault_dir_readable D path L : vault_dir D path L -> bands_readable D L = true.
Proof.
  intros [_ H1 H2 H3]. unfold bands_readable, is_dir. change profile_dir with (b "default").
  rewrite H1, H2, H3. reflexivity.
Qed.

Lemma load_items_bands O D path L bands :
  oracles_ok O -> vault_dir D path L -> plain_path path -> bands_at D L bands ->
  load_items O D path = rmap raw_of_entry (o_iter O (entries_of bands)).
Proof.
  intros HO Hv Hp Hb. assert (Hr := vault_dir_readable _ _ _ Hv).
  rewrite (load_items_contents O D path L); [|apply Hv|now apply plain_path_meta].
  destruct (bands_at_contents D L bands Hb Hr) as (cs & E & H).
  rewrite E, (load_contents_bands O _ _ H). unfold entries_of.
  destruct cs; [|reflexivity]. inversion H as [Hn|]. 
  destruct bands; [|discriminate]. simpl.
  assert (Hi := iter_perm O HO []). change (obj_of []) with (@nil (bytes * json)).
  symmetry in Hi. apply Permutation_nil in Hi. rewrite Hi. reflexivity.
Qed.

(** ** The profile *)

Lemma load_profile_at D path L p :
  vault_dir D path L -> profile_at D L p -> load_profile D path None = Ok (Some p).
Proof.
  intros Hv (t & Ht & ((mode & Hf) & Hu)). unfold load_profile, read_file.
  rewrite (resolve_profile D path L) by apply Hv.
  unfold is_dir. change profile_dir with (b "default"). change profile_file with (b "profile.js").
  rewrite (vd_dir _ _ _ Hv), (vd_default _ _ _ Hv). cbn [andb].
  unfold in_default in *. rewrite Hf, Hu, Hf.
  assert (Hl : length (b "var profile=" ++ t ++ b ";") = length t + 13).
  { rewrite !app_length. simpl. lia. }
  rewrite Hl. cbn zeta. destruct (Nat.ltb_spec (length t + 13) 13) as [Hx|_]; [lia|].
  replace (length t + 13 - 1 - 12) with (length t) by lia.
  rewrite (skipn_app_exact (b "var profile=") _ 12) by reflexivity.
  rewrite firstn_app_exact by reflexivity.
  rewrite (unmarshal_map_doc p t Ht). reflexivity.
Qed.

Lemma validate_at D path L p s :
  vault_dir D path L -> profile_at D L p -> st_profile s = None ->
  validate D path s = Ok (MkState (Some p) (st_items s) (st_keys s) (st_reg s), None).
Proof.
  intros Hv Hp Hs. unfold validate, stat. rewrite (vd_path _ _ _ Hv), (vd_dir _ _ _ Hv).
  rewrite (resolve_profile D path L) by apply Hv.
  unfold is_dir. change profile_dir with (b "default"). change profile_file with (b "profile.js").
  rewrite (vd_dir _ _ _ Hv), (vd_default _ _ _ Hv). cbn [andb].
  assert (Hl := load_profile_at D path L p Hv Hp).
  destruct Hp as (t & Ht & ((mode & Hf) & Hu)). unfold in_default in *. rewrite Hf, Hf.
  rewrite Hs, Hl. reflexivity.
Qed.

Section Open.
Variable C : crypto.
Hypothesis HC : crypto_ok C.

Lemma app_halves {A} n (x y z : list A) :
  x ++ y = z -> length x = n -> firstn n z = x /\ skipn n z = y.
Proof. intros <- <-. split; [now apply firstn_app_exact|now apply skipn_app_exact]. Qed.

Lemma unlock_keys_for password p ks :
  profile_for C password p ks -> unlock_keys C (Some p) password = Ok (Some ks).
Proof.
  intros [(salt & t & i & Hs & Hw & Hi & Hir & Hk & Hl) (mp & mt & Hm & Hmo & Hmk & Hml)
          (op & ot & Ho & Hoo & Hok & Hol)].
  unfold unlock_keys, derived_keys, get_iterations, get_salt.
  rewrite (mget_jget _ _ _ Hi), (mget_jget _ _ _ Hs). cbn [as_num as_str rbind].
  rewrite f64_to_int64_of_Z by exact Hir. rewrite (b64_decode_wrapped _ _ Hw). cbn [rbind].
  destruct (app_halves 32 _ _ _ Hk Hl) as [Ed Em]. rewrite <- Ed, <- Em in *.
  rewrite Ed, Em in *.
  unfold master_keys, overview_keys, get_master_key, get_overview_key.
  rewrite (mget_jget _ _ _ Hm), (mget_jget _ _ _ Ho). cbn [as_str rbind].
  destruct Hmo as (iv & pad & Hmp & Hmw). destruct Hoo as (iv2 & pad2 & Hop & How).
  rewrite (b64_decode_wrapped _ _ Hmw), (b64_decode_wrapped _ _ How).
  assert (Hkok : aes_key_ok (k_derived ks) = true) by now apply aes_key_ok_32.
  rewrite decode_keys_opdata by auto. cbn [rbind].
  rewrite decode_keys_opdata by auto. cbn [rbind].
  destruct (app_halves 32 _ _ _ Hmk Hml) as [E1 E2]. destruct (app_halves 32 _ _ _ Hok Hol) as [E3 E4].
  rewrite E1, E2, E3, E4. destruct ks; reflexivity.
Qed.

Variable U : unicode.
Hypothesis HU : unicode_ok U.
Variable tz : Z -> Z.

Lemma not_authentic mac blob :
  ~ authentic C mac blob -> hmac256 C mac (firstn (length blob - 32) blob) <> skipn (length blob - 32) blob.
Proof.
  intros H E. apply H. exists (firstn (length blob - 32) blob). rewrite E. symmetry. apply firstn_skipn.
Qed.

(** What is read of a part of an item. *)
Lemma part_decoded key mac doc t :
  length key = 32 -> sealed_or_damaged C key mac doc t ->
  exists r, decode_opdata C (fst (b64_decode t)) key mac = Ok r /\
            forall k, jget k (decoded_map (fst r)) = jget k (Some doc).
Proof.
  intros Hk [(plain & Hj & iv & pad & Hp & Hw)|[-> (data & Hw & Hl & Ha)]].
  - rewrite (b64_decode_wrapped _ _ Hw). cbn [fst].
    rewrite opdata_roundtrip by auto using aes_key_ok_32. eexists. split; [reflexivity|].
    intros k. cbn [fst]. unfold decoded_map. rewrite (unmarshal_map_doc doc plain Hj). reflexivity.
  - rewrite (b64_decode_wrapped _ _ Hw). cbn [fst].
    rewrite (decode_opdata_refuse C data key mac Hl (not_authentic mac data Ha)).
    eexists. split; [reflexivity|]. intros k. reflexivity.
Qed.

Lemma jget_absent k m : absent k m -> jnil (jget k (Some m)) = true.
Proof. intros H. apply absent_jget in H. now rewrite H. Qed.

(** An entry of the format is read and decoded to its item. *)
Lemma entry_decoded reg ks uid e i :
  Permutation reg registry -> length (k_master ks) = 32 -> length (k_overview ks) = 32 ->
  entry_with (sealed_or_damaged C) C U tz ks uid e i ->
  exists raw, raw_of_entry (uid, e) = Ok raw /\
              decode_item C U tz reg ks raw = Ok (Some i).
Proof.
  intros Hreg Hmk Hok [Hu Hc (m & ikey & imac & ov & de & -> & Hik & Him & Hcat & Hcr & Hcrr &
    Hup & Hupr & Htr & (h & Hh) & (kt & kiv & Hk & Hkiv & Hkw) & (ot & Ho & Hos) & (dt & Hd & Hds) & Htitle & Hurl & Hnotes & Hbody)].
  exists (MkRaw (cat_code (it_cat i)) (it_created i) dt h kt ot (it_trashed i) uid (it_updated i)).
  split.
  - unfold raw_of_entry. cbn [as_obj snd fst rbind].
    rewrite (mget_jget _ _ _ Hcr), (mget_jget _ _ _ Hup), (mget_jget _ _ _ Hcat),
      (mget_jget _ _ _ Hd), (mget_jget _ _ _ Hh), (mget_jget _ _ _ Hk), (mget_jget _ _ _ Ho).
    cbn [as_num as_str rbind].
    rewrite !f64_to_int64_of_Z by assumption.
    destruct Htr as [[Ha Hf]|Ht].
    + rewrite (jget_absent _ _ Ha), Hf. reflexivity.
    + rewrite (mget_jget _ _ _ Ht). reflexivity.
  - unfold decode_item. cbn [r_cat].
    assert (Hcc : cat_from_code reg (cat_code (it_cat i)) = Val (it_cat i)).
    { apply (cat_from_code_spec reg _ Hreg). auto. }
    rewrite Hcc. unfold decode_overview, decode_details. cbn [r_overview r_details].
    destruct (part_decoded _ _ _ _ Hok Hos) as (ro & Hro & Hgo). rewrite Hro. cbn [rbind fst].
    cbn zeta in Hkw.
    rewrite (item_keys_written C HC _ ks kiv ikey imac
        (hmac256 C (k_master_mac ks) (kiv ++ cbc_enc C (k_master ks) kiv (ikey ++ imac))) kt);
      auto using aes_key_ok_32; [|apply (hmac_len C HC)].
    cbn [rbind fst snd].
    destruct (part_decoded _ _ _ _ Hik Hds) as (rd & Hrd & Hgd). rewrite Hrd. cbn [rbind fst].
    unfold parse_sections. rewrite !Hgd, !Hgo.
    fold (parse_sections U tz (Some de)).
    rewrite (shows_body_ok U tz de _ HU Hbody). cbn [rbind].
    rewrite (text_of_ok _ _ _ Htitle), (text_of_ok _ _ _ Hurl), (text_of_ok _ _ _ Hnotes).
    cbn [rbind r_created r_trashed r_uid r_updated]. rewrite <- Hu. destruct i; reflexivity.
Qed.

Lemma foreign_decoded reg ks uid e :
  Permutation reg registry -> foreign_entry e ->
  exists raw, raw_of_entry (uid, e) = Ok raw /\ decode_item C U tz reg ks raw = Ok None.
Proof.
  intros Hreg (m & code & d & h & k & o & cr & up & -> & Hcat & Hn & Hd & Hh & Hk & Ho & Hcr & Hup & Htr).
  assert (Ht : exists t, (if jnil (jget (b "trashed") (Some m)) then Ok false
                          else as_bool (jget (b "trashed") (Some m))) = Ok t).
  { destruct Htr as [Ha|(t & Ht)].
    - assert (E := jget_absent _ _ Ha). unfold gmap in *. rewrite E. eauto.
    - assert (E := mget_jget _ _ _ Ht). unfold gmap in *. rewrite E. simpl. eauto. }
  destruct Ht as (t & Ht).
  eexists. split.
  - unfold raw_of_entry. cbn [as_obj snd fst rbind].
    rewrite (mget_jget _ _ _ Hcr), (mget_jget _ _ _ Hup), (mget_jget _ _ _ Hcat),
      (mget_jget _ _ _ Hd), (mget_jget _ _ _ Hh), (mget_jget _ _ _ Hk), (mget_jget _ _ _ Ho).
    cbn [as_num as_str rbind]. unfold gmap in *. rewrite Ht. cbn [rbind]. reflexivity.
  - apply decode_item_none. cbn [r_cat]. exists ErrUnknownItemCat.
    apply (cat_from_code_spec reg code Hreg). intros c Hc E. apply Hn. subst code.
    apply in_map_iff. exists (cat_code c, cat_name c). auto.
Qed.

Lemma items_decoded reg ks m l :
  Permutation reg registry -> length (k_master ks) = 32 -> length (k_overview ks) = 32 ->
  items_with (sealed_or_damaged C) C U tz ks m l ->
  exists raws os, rmap raw_of_entry m = Ok raws /\
    rmap (decode_item C U tz reg ks) raws = Ok os /\ somes os = l.
Proof.
  intros Hreg Hmk Hok H. induction H as [|uid e i m l He H IH|uid e m l He H IH].
  - exists [], []. auto.
  - destruct IH as (raws & os & H1 & H2 & H3).
    destruct (entry_decoded reg ks uid e i Hreg Hmk Hok He) as (raw & Hr & Hd).
    exists (raw :: raws), (Some i :: os). cbn [rmap]. rewrite Hr, H1. cbn [rbind].
    cbn [rmap]. rewrite Hd, H2. cbn [rbind]. simpl. rewrite H3. auto.
  - destruct IH as (raws & os & H1 & H2 & H3).
    destruct (foreign_decoded reg ks uid e Hreg He) as (raw & Hr & Hd).
    exists (raw :: raws), (None :: os). cbn [rmap]. rewrite Hr, H1. cbn [rbind].
    cbn [rmap]. rewrite Hd, H2. cbn [rbind]. simpl. auto.
Qed.

Lemma decode_items_at O D path L bands reg ks l :
  oracles_ok O -> vault_dir D path L -> plain_path path -> bands_at D L bands ->
  Permutation reg registry -> length (k_master ks) = 32 -> length (k_overview ks) = 32 ->
  items_with (sealed_or_damaged C) C U tz ks (entries_of bands) l ->
  exists l', decode_items C U tz O D reg path ks = Ok l' /\ Permutation l' l.
Proof.
  intros HO Hv Hp Hb Hreg Hmk Hok Hi. unfold decode_items.
  rewrite (load_items_bands O D path L bands HO Hv Hp Hb).
  destruct (items_decoded reg ks _ l Hreg Hmk Hok Hi) as (raws & os & H1 & H2 & H3).
  destruct (rmap_perm raw_of_entry (entries_of bands) (o_iter O (entries_of bands)) raws) as (raws' & H1' & Hp1).
  { symmetry. apply (iter_perm O HO). } { exact H1. }
  destruct (rmap_perm _ raws raws' os Hp1 H2) as (os' & H2' & Hp2).
  rewrite H1'. cbn [rbind]. rewrite H2'. cbn [rbind].
  exists (somes os'). split; [reflexivity|]. rewrite <- H3. symmetry. now apply somes_perm.
Qed.

Lemma items_undamaged ks m l : items_for C U tz ks m l -> items_with (sealed_or_damaged C) C U tz ks m l.
Proof.
  intros H. induction H as [|uid e i m l He H IH|uid e m l He H IH]; constructor; auto.
  destruct He as [Hu Hc (m' & ikey & imac & ov & de & H1 & H2 & H3 & H4 & H5 & H6 & H7 & H8 & H9 & H10 &
    H11 & (ot & Ho & Hos) & (dt & Hd & Hds) & H12)].
  constructor; auto. exists m', ikey, imac, ov, de. repeat (split; [assumption|]).
  split; [exists ot; split; [exact Ho|now left]|]. split; [exists dt; split; [exact Hd|now left]|].
  exact H12.
Qed.

(** Opening a vault from a state in which nothing is loaded. *)
Lemma open_damaged_vault O D path password ks l s :
  oracles_ok O -> vault_with (sealed_or_damaged C) C U tz D path password ks l ->
  st_profile s = None -> st_items s = None -> Permutation (st_reg s) registry ->
  exists p l',
    let s1 := MkState (Some p) None (st_keys s) (st_reg s) in
    let s2 := MkState (Some p) (Some l') (Some ks) (st_reg s) in
    validate D path s = Ok (s1, None) /\
    unlock C U tz O D path password s1 = Ok (s2, None) /\
    Permutation l' l.
Proof.
  intros HO [(L & p & bands & Hv & Hpp & Hpr & Hpf & Hb & Hi)] Hsp Hsi Hreg.
  assert (Hmk : length (k_master ks) = 32) by (destruct Hpf as [_ (? & ? & _ & _ & _ & H) _]; exact H).
  assert (Hok : length (k_overview ks) = 32) by (destruct Hpf as [_ _ (? & ? & _ & _ & _ & H)]; exact H).
  destruct (decode_items_at O D path L bands (st_reg s) ks l HO Hv Hpp Hb Hreg Hmk Hok Hi) as (l' & Hd & Hperm).
  exists p, l'. cbn zeta. split; [|split; [|exact Hperm]].
  - rewrite (validate_at D path L p s Hv Hpr Hsp), Hsi. reflexivity.
  - unfold unlock. cbn [st_profile st_reg st_items].
    rewrite (unlock_keys_for password p ks Hpf). cbn [rbind]. rewrite Hd. reflexivity.
Qed.

Lemma open_vault O D path password ks l s :
  oracles_ok O -> vault_at C U tz D path password ks l ->
  st_profile s = None -> st_items s = None -> Permutation (st_reg s) registry ->
  exists p l',
    let s1 := MkState (Some p) None (st_keys s) (st_reg s) in
    let s2 := MkState (Some p) (Some l') (Some ks) (st_reg s) in
    validate D path s = Ok (s1, None) /\
    unlock C U tz O D path password s1 = Ok (s2, None) /\
    Permutation l' l.
Proof.
  intros HO [(L & p & bands & Hv & Hpp & Hpr & Hpf & Hb & Hi)]. apply open_damaged_vault; [exact HO|].
  constructor. exists L, p, bands. auto 10 using items_undamaged.
Qed.

End Open.
