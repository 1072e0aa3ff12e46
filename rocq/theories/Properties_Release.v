(** What the program reads from the list of releases (C77), and the properties that depend on it: C55, C57, C60,
    C70, C80 and C89.  What the list says is specified in Spec_Release.v. *)
From Verif Require Import Base Utf8 Spec_Trim GoStrings GoStringsProof FieldsProof Json Civil Crypto Path Fs FsProof Domain DomainProof Repos
  Session SessionProof World WorldProof Config Updater UpdateProof Cli CliProof CliEvents Spec_Release
  Spec_Vault Spec_Domain Toy ToyYaml Properties_Layout Properties_Config Properties_Update Properties_Check Properties_Version
  Properties_Cli Properties_Show Properties_Effects Properties_Cli2.
Local Notation newline := World.newline.

(** ** Lemmas *)

Lemma asset_urls_url l : forall a c a' c', asset_urls l a c = Ok (a', c') -> Forall fine_asset l /\
  ((exists before j after, l = before ++ j :: after /\ is_archive j a' /\ forall k v, In k after -> ~ is_archive k v) \/
   (a' = a /\ forall k v, In k l -> ~ is_archive k v)) /\
  ((exists before j after, l = before ++ j :: after /\ is_checksum j c' /\ forall k v, In k after -> ~ is_checksum k v) \/
   (c' = c /\ forall k v, In k l -> ~ is_checksum k v)).
Proof.
  induction l as [|j l IH]; intros a c a' c' H; cbn [asset_urls] in H.
  { split; [constructor|]. split; right; (split; [congruence|intros k v []]). }
  destruct j as [| | | | |m]; cbn [as_obj rbind] in H; try discriminate.
  unfold jget in H. destruct (mget (b "name") m) as [[| | |name| |]|] eqn:En; cbn [as_str rbind] in H; try discriminate.
  assert (Hn : forall x u, asset (JObj m) x u -> x = name /\ mget (b "browser_download_url") m = Some (JStr u)).
  { intros x u (m' & [= <-] & H1 & H2). unfold has in *. split; [congruence|exact H2]. }
  assert (Hw : forall a0 c0, asset_urls l a0 c0 = Ok (a', c') -> fine_asset (JObj m) ->
    (is_archive (JObj m) a0 \/ a0 = a /\ forall v, ~ is_archive (JObj m) v) ->
    (is_checksum (JObj m) c0 \/ c0 = c /\ forall v, ~ is_checksum (JObj m) v) ->
    Forall fine_asset (JObj m :: l) /\
    ((exists before j after, JObj m :: l = before ++ j :: after /\ is_archive j a' /\ forall k v, In k after -> ~ is_archive k v) \/
     (a' = a /\ forall k v, In k (JObj m :: l) -> ~ is_archive k v)) /\
    ((exists before j after, JObj m :: l = before ++ j :: after /\ is_checksum j c' /\ forall k v, In k after -> ~ is_checksum k v) \/
     (c' = c /\ forall k v, In k (JObj m :: l) -> ~ is_checksum k v))).
  { intros a0 c0 H0 Hf A0 C0. destruct (IH _ _ _ _ H0) as (F & A & B). split; [now constructor|]. split.
    - destruct A as [(p & j & q & -> & A1 & A2)|[-> A]]; [left; exists (JObj m :: p), j, q; auto|].
      destruct A0 as [A0|[-> A0]]; [left; exists [], (JObj m), l; auto|right; split; [reflexivity|]].
      intros k v [<-|Hk]; [apply A0|now apply A].
    - destruct B as [(p & j & q & -> & A1 & A2)|[-> B]]; [left; exists (JObj m :: p), j, q; auto|].
      destruct C0 as [C0|[-> C0]]; [left; exists [], (JObj m), l; auto|right; split; [reflexivity|]].
      intros k v [<-|Hk]; [apply C0|now apply B]. }
  destruct (contains name (b ".tar.gz")) eqn:E1.
  - destruct (mget (b "browser_download_url") m) as [[| | |u| |]|] eqn:Eu; cbn [as_str rbind] in H; try discriminate.
    apply part_contains in E1. apply (Hw _ _ H).
    + exists m, name. split; [reflexivity|]. split; [exact En|]. intros _. exists u. exact Eu.
    + left. exists name. split; [exists m; auto|exact E1].
    + right. split; [reflexivity|]. intros v (x & Hx & _ & Hp). apply Hn in Hx. destruct Hx as [-> _]. contradiction.
  - assert (E1' : ~ part_of (b ".tar.gz") name) by (intros P; apply part_contains in P; congruence).
    assert (Na : forall v, ~ is_archive (JObj m) v) by (intros v (x & Hx & Hp); apply Hn in Hx; destruct Hx as [-> _]; contradiction).
    destruct (contains name (b ".md5")) eqn:E2.
    + destruct (mget (b "browser_download_url") m) as [[| | |u| |]|] eqn:Eu; cbn [as_str rbind] in H; try discriminate.
      apply part_contains in E2. apply (Hw _ _ H).
      * exists m, name. split; [reflexivity|]. split; [exact En|]. intros _. exists u. exact Eu.
      * right. auto.
      * left. exists name. split; [exists m; auto|auto].
    + assert (E2' : ~ part_of (b ".md5") name) by (intros P; apply part_contains in P; congruence).
      apply (Hw _ _ H).
      * exists m, name. split; [reflexivity|]. split; [exact En|]. intros [P|P]; contradiction.
      * right. auto.
      * right. split; [reflexivity|]. intros v (x & Hx & Hp & _). apply Hn in Hx. destruct Hx as [-> _]. contradiction.
Qed.

Definition offer_of (info : update_info) : offer := MkOffer (ui_version info) (ui_changelog info) (ui_archive info) (ui_checksum info).

Lemma newer_number v : (version_number app_version <? version_number v)%Z = true <-> newer v.
Proof.
  rewrite Z.ltb_lt. unfold version_number at 2. rewrite replace_dots.
  change (version_number app_version) with 131%Z. apply parse_int_above. unfold max_int64. lia.
Qed.

Lemma read_offers body info : read_releases body = Ok (Val (Some info)) <->
  offers body (offer_of info) /\ (ui_newer info = true <-> newer (ui_version info)).
Proof.
  split.
  - intros H. unfold read_releases in H. destruct (unmarshal body) as [[[| | | |l|]|] [|]] eqn:Eu; try discriminate.
    destruct l as [|j l]; [discriminate|]. destruct j as [| | | | |m]; try discriminate. cbn [as_obj rbind] in H.
    destruct (as_str_has (b "body") m) as [(s1 & E1 & K1)|[E1 _]]; rewrite E1 in H; cbn [rbind] in H; [|discriminate].
    destruct (as_str_has (b "tag_name") m) as [(s2 & E2 & K2)|[E2 _]]; rewrite E2 in H; cbn [rbind] in H; [|discriminate].
    destruct (as_arr_has (b "assets") m) as [(assets & E3 & K3)|[E3 _]]; rewrite E3 in H; cbn [rbind] in H; [|discriminate].
    destruct (asset_urls assets [] []) as [[a' c']| |] eqn:Ea; cbn [rbind fst snd] in H; try discriminate.
    assert (Hi : info = MkInfo a' s1 c' (version_number app_version <? version_number s2)%Z s2) by congruence. rewrite Hi. clear H Hi.
    destruct (asset_urls_url _ _ _ _ _ Ea) as (F & A & B). split; [|apply newer_number].
    exists m, l, assets. repeat split; assumption.
  - intros [(m & rest & assets & Hu & H1 & H2 & H3 & HF & HA & HC) Hn]. unfold document in Hu. unfold read_releases. rewrite Hu.
    cbn [as_obj rbind]. unfold jget. unfold has in H1, H2, H3. rewrite H1, H2, H3. cbn [as_str as_arr rbind].
    destruct (asset_urls_fine assets [] []) as [A1 _]. destruct (A1 HF) as [[a' c'] Ea]. rewrite Ea. cbn [rbind fst snd].
    destruct (asset_urls_last _ _ _ _ _ Ea) as [L1 L2]. destruct (asset_urls_from _ _ _ _ _ Ea) as [F1 F2].
    assert (Ha : a' = ui_archive info).
    { destruct HA as [(p & j & q & HA1 & HA2 & HA3)|[HA1 HA2]]; [exact (L1 _ _ _ _ HA1 HA2 HA3)|].
      destruct F1 as [->|(j & Hj & Hj')]; [symmetry; exact HA1|elim (HA2 _ _ Hj Hj')]. }
    assert (Hc : c' = ui_checksum info).
    { destruct HC as [(p & j & q & HA1 & HA2 & HA3)|[HA1 HA2]]; [exact (L2 _ _ _ _ HA1 HA2 HA3)|].
      destruct F2 as [->|(j & Hj & Hj')]; [symmetry; exact HA1|elim (HA2 _ _ Hj Hj')]. }
    rewrite <- newer_number in Hn. subst a' c'. cbn [offer_of of_version of_notes].
    assert (Hb : (version_number app_version <? version_number (ui_version info))%Z = ui_newer info).
    { destruct (ui_newer info), (_ <? _)%Z; intuition congruence. }
    rewrite Hb. destruct info. reflexivity.
Qed.

Lemma read_none body : read_releases body = Ok (Val None) <-> no_release body.
Proof.
  unfold no_release, document. split.
  - intros H. unfold read_releases in H. destruct (unmarshal body) as [[[| | | |l|]|] [|]] eqn:Eu; try discriminate; [now left|].
    destruct l as [|j l]; [discriminate|]. destruct j as [| | | | |m]; try discriminate; [right; eauto|]. exfalso. cbn [as_obj rbind] in H.
    destruct (as_str_has (b "body") m) as [(s1 & E1 & K1)|[E1 _]]; rewrite E1 in H; cbn [rbind] in H; [|discriminate].
    destruct (as_str_has (b "tag_name") m) as [(s2 & E2 & K2)|[E2 _]]; rewrite E2 in H; cbn [rbind] in H; [|discriminate].
    destruct (as_arr_has (b "assets") m) as [(assets & E3 & K3)|[E3 _]]; rewrite E3 in H; cbn [rbind] in H; [|discriminate].
    destruct (asset_urls assets [] []) as [[a' c']| |] eqn:Ea; cbn [rbind fst snd] in H; discriminate.
  - unfold read_releases. intros [->|(rest & ->)]; reflexivity.
Qed.

Lemma fetch_read w : snd (fetch_info w) =
  match w_net w with NetBody body true :: _ => read_releases body | _ => Ok (Err io_error) end.
Proof.
  unfold fetch_info, bind, http_get. change github_releases with releases_url.
  assert (E : exists c u, releases_url = c :: u) by (eexists; eexists; reflexivity). destruct E as (c & u & ->).
  destruct (w_net w) as [|[|body [|]] rest]; reflexivity.
Qed.

Lemma fetch_answered w x : snd (fetch_info w) = Ok (Val x) <-> exists body, answer w 0 body /\ read_releases body = Ok (Val x).
Proof.
  rewrite fetch_read. unfold answer. destruct (w_net w) as [|[|body [|]] rest]; cbn [nth_error]; split; try discriminate;
    try (intros (b0 & H & _); discriminate); [intros H; eauto|].
  intros (b0 & [= <-] & H). exact H.
Qed.

Lemma fetch_offers w info : snd (fetch_info w) = Ok (Val (Some info)) <->
  exists body, answer w 0 body /\ offers body (offer_of info) /\ (ui_newer info = true <-> newer (ui_version info)).
Proof. rewrite fetch_answered. split; intros (body & H1 & H2); exists body; (split; [exact H1|]); apply read_offers; exact H2. Qed.

Lemma newer_dec v : {newer v} + {~ newer v}.
Proof.
  destruct (version_number app_version <? version_number v)%Z eqn:E; [left|right]; rewrite <- newer_number; congruence.
Qed.
(** What the program makes of an offer. *)
Definition info_of (o : offer) : update_info :=
  MkInfo (of_archive o) (of_notes o) (of_checksum o) (if newer_dec (of_version o) then true else false) (of_version o).
Lemma info_newer o : ui_newer (info_of o) = true <-> newer (of_version o).
Proof. unfold info_of. cbn [ui_newer]. destruct (newer_dec _); intuition congruence. Qed.
Lemma offers_read body o : offers body o -> read_releases body = Ok (Val (Some (info_of o))).
Proof. intros H. apply read_offers. split; [destruct o; exact H|apply info_newer]. Qed.

(** ** C77 *)

(** Looking for a release finds exactly what the newest release of the list offers... *)
Theorem C77_release_found : forall w info, snd (fetch_info w) = Ok (Val (Some info)) <->
  exists body o, answer w 0 body /\ offers body o /\
    ui_version info = of_version o /\ ui_changelog info = of_notes o /\
    ui_archive info = of_archive o /\ ui_checksum info = of_checksum o /\
    (ui_newer info = true <-> newer (of_version o)).
Proof.
  intros w info. rewrite fetch_offers. split.
  - intros (body & H1 & H2 & H3). exists body, (offer_of info). split; [exact H1|]. split; [exact H2|]. repeat split; apply H3.
  - intros (body & o & H1 & H2 & E1 & E2 & E3 & E4 & E5). exists body. split; [exact H1|]. rewrite E1. split; [|exact E5].
    replace (offer_of info) with o; [exact H2|]. unfold offer_of. rewrite E1, E2, E3, E4. destruct o. reflexivity.
Qed.
Print Assumptions C77_release_found.

(** ... and none if the list says so. *)
Theorem C77_none_found : forall w, snd (fetch_info w) = Ok (Val None) <-> exists body, answer w 0 body /\ no_release body.
Proof. intros w. rewrite fetch_answered. split; intros (body & H1 & H2); exists body; (split; [exact H1|]); apply read_none; exact H2. Qed.
Print Assumptions C77_none_found.

(** One document does not make two offers. *)
Theorem C77_one_offer : forall body o o', offers body o -> offers body o' -> o = o'.
Proof.
  intros body o o' H H'. apply offers_read in H, H'. rewrite H in H'. unfold info_of in H'. destruct o, o'. cbn in H'. congruence.
Qed.
Print Assumptions C77_one_offer.

Example C77_offer_example : offers demo_assets (MkOffer (b "1.4.0") (b "n") (b "u:a") (b "u:c")) /\ newer (b "1.4.0") /\
  ~ newer (b "1.3.1") /\ no_release (b "null").
Proof.
  split; [|split; [|split]].
  - apply (proj1 (read_offers demo_assets (MkInfo (b "u:a") (b "n") (b "u:c") true (b "1.4.0")) ) ltac:(vm_compute; reflexivity)).
  - apply newer_number. vm_compute. reflexivity.
  - rewrite <- newer_number. vm_compute. discriminate.
  - left. vm_compute. reflexivity.
Qed.

(** The check crashes only on an odd list. *)
Lemma read_releases_noexit body n : read_releases body <> Exit n.
Proof.
  intros H. refine (C58_lookup_never_exits_partial (MkWorld (MkDisk [] [] (fun _ => false)) 0 None [] [NetBody body true] [] [] [] []) n _).
  assert (Hu : exists c u, github_releases = c :: u) by (eexists; eexists; reflexivity). destruct Hu as (c & u & Hu).
  unfold fetch_info, bind, http_get. rewrite Hu. cbn [w_net add_event]. unfold lift. rewrite H. reflexivity.
Qed.
Lemma read_cases body : (exists e, read_releases body = Ok (Err e)) \/ (exists x, read_releases body = Ok (Val x)) \/ odd_list body.
Proof.
  assert (P : (exists l, document body (JArr l)) -> read_releases body = Panic -> odd_list body).
  { intros Hl Hp. split; [exact Hl|]. split; [intros H; apply read_none in H; congruence|].
    intros (o & H). apply offers_read in H. congruence. }
  assert (N := read_releases_noexit body). destruct (read_releases body) as [[x|e]| |n] eqn:E; [eauto|eauto| |now elim (N n)].
  right. right. apply P; [|reflexivity]. unfold read_releases in E. unfold document.
  destruct (unmarshal body) as [[[| | | |l|]|] [|]]; try discriminate. eauto.
Qed.
Lemma check_panics period dir w : snd (check_for_update period true dir w) = Panic -> exists body, answer w 0 body /\ odd_list body.
Proof.
  rewrite check_eq. unfold do_check, bind at 1, fetch_info, bind at 1, http_get. change github_releases with releases_url.
  assert (Hu : exists c u, releases_url = c :: u) by (eexists; eexists; reflexivity). destruct Hu as (c & u & ->).
  unfold answer. destruct (w_net w) as [|[|body [|]] rest]; try discriminate. intros H. exists body. split; [reflexivity|].
  destruct (read_cases body) as [(e & E)|[(x & E)|E]]; [| |exact E]; unfold lift in H; rewrite E in H; [discriminate|].
  exfalso. set (w0 := set_net _ _) in H. destruct (timestamp_events dir w0) as (w1 & t & Et & _).
  destruct x; unfold bind in H; rewrite Et in H; discriminate.
Qed.

(** ** C55 *)

(** Unless the server offers a newer release and the user answers y or Y, the update command does
    not begin to update: it exits with 1 (or crashes on unreadable settings or an odd answer of the server,
    see C49 and C58), requests nothing but the list of releases, and changes no file but the
    time of the last check. *)
Theorem C55_no_update_without_consent : forall C U tz O Y T render dir w w' r,
  unicode_ok U -> dir <> [] ->
  process C U tz O Y T render dir CmdUpdate w = (w', r) ->
  ~ In (typed_word w) [b "y"; b "Y"] \/
  ~ (exists body o, answer w 0 body /\ offers body o /\ newer (of_version o)) ->
  (r = Exit 1 \/ r = Panic) /\
  (forall u, happened w w' (EGet u) -> u = releases_url) /\
  (forall n, ~ happened w w' (EStage n)) /\
  ever w w' (same_but [last_check_place w dir] (w_fs w)).
Proof.
  intros C U tz O Y T render dir w w' r HU Hd H Hno. apply (no_update C U tz O Y T render dir w w' r HU Hd H).
  destruct Hno as [Hno|Hno]; [now left|right]. intros (info & Hi & Hn). apply Hno.
  apply fetch_offers in Hi. destruct Hi as (body & H1 & H2 & H3). exists body, (offer_of info).
  split; [exact H1|]. split; [exact H2|]. apply H3, Hn.
Qed.
Print Assumptions C55_no_update_without_consent.

(** ** C57 *)

(** No newer release, or none at all: Update says so and leaves the disk alone. *)
Theorem C57_up_to_date_unchanged : forall C T stage w body,
  answer w 0 body -> no_release body \/ (exists o, offers body o /\ ~ newer (of_version o)) ->
  exists w', update C T stage w = (w', Ok (Some ErrNoUpdate)) /\
    w_disk w' = w_disk w /\ w_faults w' = w_faults w /\ w_trace w' = EGet releases_url :: w_trace w.
Proof.
  intros C T stage w body Ha [Hn|(o & Ho & Hn)].
  - apply (up_to_date C T stage w None); [|now left]. apply fetch_answered. exists body. split; [exact Ha|now apply read_none].
  - apply (up_to_date C T stage w (Some (info_of o))).
    + apply fetch_answered. exists body. split; [exact Ha|now apply offers_read].
    + right. exists (info_of o). split; [reflexivity|]. apply not_true_iff_false. now rewrite info_newer.
Qed.
Print Assumptions C57_up_to_date_unchanged.

(** So it does if the newest release is the running version... *)
Theorem C57_own_version_unchanged : forall C T stage w body o,
  answer w 0 body -> offers body o -> of_version o = b "1.3.1" ->
  exists w', update C T stage w = (w', Ok (Some ErrNoUpdate)) /\
    w_disk w' = w_disk w /\ w_faults w' = w_faults w /\ w_trace w' = EGet releases_url :: w_trace w.
Proof.
  intros C T stage w body o Ha Ho Hv. apply (C57_up_to_date_unchanged C T stage w body Ha). right. exists o. split; [exact Ho|].
  rewrite Hv, <- newer_number. vm_compute. discriminate.
Qed.
Print Assumptions C57_own_version_unchanged.

(** ... or an earlier one (but for those C56 tells of). *)
Theorem C57_lower_version_unchanged : forall C T stage w body o x y z,
  answer w 0 body -> offers body o -> of_version o = version_text [x; y; z] ->
  (1 <= x)%N -> (z < 10)%N -> ~ higher [x; y; z] [1; 3; 1]%N ->
  exists w', update C T stage w = (w', Ok (Some ErrNoUpdate)) /\
    w_disk w' = w_disk w /\ w_faults w' = w_faults w /\ w_trace w' = EGet releases_url :: w_trace w.
Proof.
  intros C T stage w body o x y z Ha Ho Hv Hx Hz Hlow. apply (C57_up_to_date_unchanged C T stage w body Ha). right. exists o.
  split; [exact Ho|]. rewrite <- info_newer.
  assert (Hf : snd (fetch_info w) = Ok (Val (Some (info_of o)))) by (apply fetch_answered; exists body; split; [exact Ha|now apply offers_read]).
  rewrite (C56_newer_partial w (info_of o) x y z Hf Hv Hx). intros [H|H]; [exact (Hlow H)|lia].
Qed.
Print Assumptions C57_lower_version_unchanged.

(** The command [update] then says that the program is up to date, and asks the user nothing. *)
Theorem C57_update_command : forall C U tz O Y T render dir w m cfg body,
  load_config Y (w_disk w) dir = Ok m -> get_config m = Ok cfg ->
  answer w 0 body -> no_release body \/ (exists o, offers body o /\ ~ newer (of_version o)) ->
  exists w', process C U tz O Y T render dir CmdUpdate w = (w', Exit 1) /\
    screen w' = screen w ++ [b "Checking for 1pass application updates..." ++ newline; b "up to date" ++ newline] /\
    w_stdin w' = w_stdin w /\ forall u, happened w w' (EGet u) -> u = releases_url.
Proof.
  intros C U tz O Y T render dir w m cfg body Hm Hcfg Ha Hb.
  set (w1 := add_event (EOut (b "Checking for 1pass application updates..." ++ newline)) w).
  assert (F : exists found, snd (fetch_info w1) = Ok (Val found) /\
    (found = None \/ exists info, found = Some info /\ ui_newer info = false)).
  { destruct Hb as [Hn|(o & Ho & Hn)].
    - exists None. split; [|now left]. apply fetch_answered. exists body. split; [exact Ha|now apply read_none].
    - exists (Some (info_of o)). split; [apply fetch_answered; exists body; split; [exact Ha|now apply offers_read]|].
      right. exists (info_of o). split; [reflexivity|]. apply not_true_iff_false. now rewrite info_newer. }
  destruct F as (found & Hf & Hcase).
  assert (Q : w_stdin (fst (fetch_info w1)) = w_stdin w).
  { unfold fetch_info, bind, http_get. change github_releases with releases_url.
    assert (E : exists c u, releases_url = c :: u) by (eexists; eexists; reflexivity). destruct E as (c & u & ->).
    destruct (w_net w1) as [|[|x [|]] rest]; reflexivity. }
  destruct (fetch_asks w1) as (Ht & _). destruct (fetch_info w1) as [w2 x] eqn:Ef. cbn [snd fst] in *. subst x.
  destruct (timestamp_events dir w2) as (w3 & t & Es & Et & Hev).
  assert (Qs := proj1 (quiet_check_timestamp dir w2)). rewrite Es in Qs. cbn [fst] in Qs.
  assert (K : facade_check m true dir w1 = (w3, Ok (Err ErrNoUpdate))).
  { unfold facade_check, bind at 1, lift. rewrite Hcfg, check_eq. unfold do_check, bind at 1. rewrite Ef.
    destruct Hcase as [->|(info & -> & Hn)]; unfold bind; rewrite Es; [reflexivity|]. rewrite Hn. reflexivity. }
  exists (add_event (EOut (b "up to date" ++ newline)) w3). split; [|split; [|split]].
  - rewrite process_run, Hm.
    assert (R : run_command C U tz O Y T render dir CmdUpdate (MkApp w m init) =
      (MkApp (add_event (EOut (b "up to date" ++ newline)) w3) m init, Exit 1)).
    { cbn [run_command]. unfold run_update, bind at 1, say at 1, on_world at 1, println at 1, print at 1.
      cbn [a_world a_conf a_vault]. fold w1. unfold bind at 1, the_conf. cbn [a_conf]. unfold bind at 1, on_world at 1.
      cbn [a_world a_conf a_vault]. rewrite K. reflexivity. }
    rewrite R. reflexivity.
  - unfold screen. cbn [w_trace add_event flat_map]. rewrite Et, Ht, flat_map_app.
    rewrite outs_none by (revert Hev; apply Forall_impl; tauto). unfold w1. cbn [w_trace add_event flat_map Datatypes.app rev].
    rewrite <- app_assoc. reflexivity.
  - cbn [w_stdin add_event]. rewrite Qs. exact Q.
  - intros u Hu. assert (E : w_trace (add_event (EOut (b "up to date" ++ newline)) w3) =
      (EOut (b "up to date" ++ newline) :: t ++ [EGet releases_url; EOut (b "Checking for 1pass application updates..." ++ newline)]) ++ w_trace w).
    { cbn [w_trace add_event]. rewrite Et, Ht. unfold w1. cbn [w_trace add_event Datatypes.app]. rewrite <- app_assoc. reflexivity. }
    apply (happened_in _ _ _ _ E) in Hu. destruct Hu as [Hu|Hu]; [discriminate|]. apply in_app_or in Hu.
    destruct Hu as [Hu|[Hu|[Hu|[]]]]; [|congruence|discriminate].
    rewrite Forall_forall in Hev. apply Hev in Hu. destruct Hu as (f & Hu). discriminate.
Qed.
Print Assumptions C57_update_command.

Definition release_131 : bytes := b "[{""tag_name"":""1.3.1"",""body"":""n"",""assets"":[]}]".
Definition release_129 : bytes := b "[{""tag_name"":""1.2.9"",""body"":""n"",""assets"":[]}]".

Example C57_example :
  let w := update_world [NetBody release_131 true] in let v := update_world [NetBody release_129 true] in
  (answer w 0 release_131 /\ offers release_131 (MkOffer (b "1.3.1") (b "n") [] [])) /\
  (answer v 0 release_129 /\ offers release_129 (MkOffer (version_text [1; 2; 9]%N) (b "n") [] []) /\ ~ higher [1; 2; 9]%N [1; 3; 1]%N).
Proof.
  cbn zeta. split; split; [reflexivity| |reflexivity|split].
  - apply (proj1 (read_offers release_131 (MkInfo [] (b "n") [] false (b "1.3.1"))) ltac:(vm_compute; reflexivity)).
  - apply (proj1 (read_offers release_129 (MkInfo [] (b "n") [] false (b "1.2.9"))) ltac:(vm_compute; reflexivity)).
  - cbn [higher]. lia.
Qed.

Example C57_update_command_example :
  let w := cli_world [NetBody (b "[null]") true] (b "y" ++ newline) in
  answer w 0 (b "[null]") /\ no_release (b "[null]") /\
  (exists m cfg, load_config toy_yaml (w_disk w) (b "/c") = Ok m /\ get_config m = Ok cfg) /\
  length (screen (fst (demo_process (b "/c") CmdUpdate w))) = 2.
Proof.
  cbn zeta. split; [reflexivity|]. split; [|split; [eexists; eexists; split; vm_compute; reflexivity|vm_compute; reflexivity]].
  apply read_none. vm_compute. reflexivity.
Qed.

(** ** C60 *)

(** The server was asked and answered: there is no release, or the list says what it offers. *)
Definition understood (w : world) : Prop := exists body, answer w 0 body /\ (no_release body \/ exists o, offers body o).

Lemma understood_fetch w : understood w <-> exists v, snd (fetch_info w) = Ok (Val v).
Proof.
  split.
  - intros (body & Ha & [Hn|(o & Ho)]); [exists None|exists (Some (info_of o))]; apply fetch_answered; exists body; (split; [exact Ha|]);
      [now apply read_none|now apply offers_read].
  - intros ([info|] & H); apply fetch_answered in H; destruct H as (body & Ha & H); exists body; (split; [exact Ha|]).
    + right. apply read_offers in H. destruct H as [H _]. eauto.
    + left. now apply read_none.
Qed.
Lemma understood_clock w : understood (rest_clock w) <-> understood w.
Proof. unfold understood, answer. destruct (rest_clock_same w) as (_ & _ & ->). reflexivity. Qed.

(** Nothing is written unless the server was asked and gave an answer that was understood. *)
Theorem C60_not_recorded_without_answer : forall period force dir w w' r,
  check_for_update period force dir w = (w', r) -> nothing_asked w w' \/ ~ understood w ->
  w_disk w' = w_disk w.
Proof.
  intros period force dir w w' r H Hno. apply (not_recorded period force dir w w' r H).
  destruct Hno as [Hno|Hno]; [now left|right]. intros v Hv. apply Hno.
  destruct force; [|apply understood_clock]; apply understood_fetch; eauto.
Qed.
Print Assumptions C60_not_recorded_without_answer.

(** If it answered, the time of the answer is recorded (when the directory is there, the
    file can be written and read and the disk does not fail)... *)
Theorem C60_recorded_after_answer : forall period force dir w w' r L t,
  check_for_update period force dir w = (w', r) ->
  w_faults w = [] -> resolve (w_disk w) dir = Some L -> is_dir (w_fs w) L = true ->
  is_dir (w_fs w) (b "lastcheck" :: L) = false -> d_unreadable (w_disk w) (b "lastcheck" :: L) = false ->
  asked w w' -> understood w ->
  nth_error (w_clock w) (if force then 0 else 1) = Some t ->
  (- 9000000000000000000 < t < 9000000000000000000)%Z ->
  last_check (w_disk w') dir (t / 1000000000).
Proof.
  intros period force dir w w' r L t H Hf HL Hd Hl Hu Ha Hun Ht Hr.
  assert (Hv : exists v, snd (fetch_info (if force then w else rest_clock w)) = Ok (Val v)).
  { apply understood_fetch. destruct force; [exact Hun|now apply understood_clock]. }
  destruct Hv as (v & Hv). exact (recorded period force dir w w' r L t v H Hf HL Hd Hl Hu Ha Hv Ht Hr).
Qed.
Print Assumptions C60_recorded_after_answer.

Example C60_answer_example :
  let w := MkWorld (MkDisk [([b "c"], NDir)] [] (fun _ => false)) 18 None []
    [NetBody (b "null") true] [0; 1641124799123456789]%Z [] [] [] in
  understood w /\ asked w (fst (check_for_update 1 false (b "/c") w)) /\
  last_check (w_disk (fst (check_for_update 1 false (b "/c") w))) (b "/c") 1641124799 /\
  ~ understood (set_net [NetBody (b "null") false] w).
Proof.
  cbn zeta. split; [exists (b "null"); split; [reflexivity|left; left; vm_compute; reflexivity]|].
  split; [exact (proj1 C60_example)|]. split.
  - exists (b "1641124799"), (trim_space (b "1641124799")). split; [exact (proj2 C60_example)|]. split; [apply FieldsProof.trim_space_trimmed|]. apply parse_int_numeral. vm_compute. reflexivity.
  - intros (body & H & _). discriminate H.
Qed.

(** ** C80 *)

(** If the server's second answer is like the first, everything downloaded belongs to the release the
    user was asked about. *)
Theorem C80_confirmed_release_partial : forall C U tz O Y T render dir w w' r body o rest,
  w_net w = NetBody body true :: NetBody body true :: rest -> offers body o ->
  process C U tz O Y T render dir CmdUpdate w = (w', r) ->
  forall u, happened w w' (EGet u) -> In u [releases_url; of_archive o; of_checksum o].
Proof.
  intros C U tz O Y T render dir w w' r body o rest Hnet Ho H u Hu.
  apply (confirmed_release C U tz O Y T render dir w w' r _ rest (info_of o) Hnet); [|exact H|exact Hu].
  apply fetch_answered. exists body. split; [unfold answer; now rewrite Hnet|now apply offers_read].
Qed.
Print Assumptions C80_confirmed_release_partial.

(** The server is asked twice, before and after the user's consent, and may answer differently: then another
    release is installed than the user was asked about, and the report names the wrong version. *)
Theorem C80_confirmed_release_refuted : exists w w' body o,
  answer w 0 body /\ offers body o /\ of_version o = b "1.4.0" /\
  demo_process (b "/c") CmdUpdate w = (w', Ok tt) /\
  happened w w' (EGet (b "u:later")) /\ ~ happened w w' (EGet (of_archive o)) /\
  read_file (w_disk w) (b "/bin/1pass") = Some (b "old") /\ read_file (w_disk w') (b "/bin/1pass") = Some (b "new") /\
  In (b "1pass application updated to version 1.4.0" ++ newline) (screen w').
Proof.
  destruct confirmed_changes as (w & w' & info & H1 & H2). apply fetch_offers in H1. destruct H1 as (body & Ha & Ho & _).
  exists w, w', body, (offer_of info). split; [exact Ha|]. split; [exact Ho|]. exact H2.
Qed.
Print Assumptions C80_confirmed_release_refuted.

(** ** C89 *)

(** If a check is due and the newest release is newer, every command but update and
    version first says so, and then goes on. *)
Theorem C89_newer_release_announced : forall C U tz O Y T render dir c w w' r cfg t ts body o,
  c <> CmdUpdate -> c <> CmdVersion -> settings Y w dir cfg -> cfg_notify cfg = true ->
  w_clock w = t :: ts -> due w dir t (cfg_period cfg) ->
  answer w 0 body -> offers body o -> newer (of_version o) ->
  process C U tz O Y T render dir c w = (w', r) ->
  exists later files,
    w_trace w' = later ++ EOut (announcement (of_version o)) :: files ++ EGet releases_url :: w_trace w /\
    Forall file_event files /\ forall u, ~ In (EGet u) later.
Proof.
  intros C U tz O Y T render dir c w w' r cfg t ts body o Hc Hv Hs Hn Hcl Hdue Ha Ho Hnew H.
  assert (Hnet : exists net, w_net w = NetBody body true :: net).
  { unfold answer in Ha. destruct (w_net w) as [|x net]; [discriminate|]. injection Ha as ->. eauto. }
  destruct Hnet as (net & Hnet). apply info_newer in Hnew.
  exact (newer_announced C U tz O Y T render dir c w w' r cfg t ts body net (info_of o) Hc Hv Hs Hn Hcl Hdue Hnet (offers_read _ _ Ho) Hnew H).
Qed.
Print Assumptions C89_newer_release_announced.

(** The newest release cannot be had, or is not newer (and the list is not odd, see C58). *)
Definition none_newer (w : world) : Prop := forall body, answer w 0 body ->
  ~ odd_list body /\ forall o, offers body o -> ~ newer (of_version o).

Lemma none_newer_read w : none_newer w -> nothing_newer w.
Proof.
  unfold none_newer, nothing_newer, answer. intros H. destruct (w_net w) as [|[|body [|]] rest]; try exact Logic.I.
  destruct (H body eq_refl) as [Hodd Hn].
  destruct (read_cases body) as [(e & E)|[(x & E)|E]]; [exists (Err e)|exists (Val x)|contradiction]; (split; [exact E|]).
  - discriminate.
  - intros info [= ->]. apply read_offers in E. destruct E as [E1 E2]. apply not_true_iff_false. rewrite E2. exact (Hn _ E1).
Qed.

(** All categories in the order of their codes, numbered from 1. *)
Definition category_table : list (list bytes) :=
  [b "lp."; b "category"] ::
  map (fun nc => [itoa (Z.of_nat (fst nc)); snd (snd nc)]) (combine (seq 1 (length published)) published).

Lemma category_table_eq : [b "lp."; b "category"] :: number_rows 1 (map (fun c => [cat_name c]) (sort_cats (st_reg init))) = category_table.
Proof. vm_compute. reflexivity. Qed.

(** If there is no newer release, or it cannot be found out, the command is as
    it would be without looking: the categories are listed, and nothing else is shown. *)
Theorem C89_nothing_announced : forall C U tz O Y T render dir w m cfg,
  load_config Y (w_disk w) dir = Ok m -> get_config m = Ok cfg -> none_newer w ->
  exists w', process C U tz O Y T render dir CmdCategories w = (w', Ok tt) /\
    screen w' = screen w ++ [render category_table ++ newline].
Proof.
  intros C U tz O Y T render dir w m cfg H1 H2 H3. rewrite <- category_table_eq.
  exact (nothing_announced C U tz O Y T render dir w m cfg H1 H2 (none_newer_read w H3)).
Qed.
Print Assumptions C89_nothing_announced.

Lemma run_split C U tz O Y T render dir c : c <> CmdUpdate -> c <> CmdVersion -> exists k : act unit,
  forall a, is_available (a_conf a) = true -> run_command C U tz O Y T render dir c a = (cli_check dir ;;; k)%st a.
Proof.
  intros Hc Hv. destruct (flag_of c) as [v|] eqn:Ef.
  - exists ((vault <- choose v ;; enter C U tz O vault) ;;; finish U tz O render c)%st. intros a Ha.
    rewrite (run_vault_command _ _ _ _ _ _ _ _ _ v _ Ef). unfold bind at 1. rewrite open_vault_eq.
    unfold bind at 1, prepare, bind at 1, first_run, bind at 1, the_conf.
    rewrite Ha. unfold ret at 1. unfold bind at 2. destruct (cli_check dir a) as [a1 [[]| |n]]; reflexivity.
  - destruct c; try discriminate; try congruence.
    + exists (interview U Y dir). intros a _. reflexivity.
    + eexists. intros a _. reflexivity.
Qed.

Lemma alike_check dir w w1 body rest t ts : w_net w = NetBody body true :: rest -> w_clock w = t :: ts ->
  w1 = set_net rest (add_event (EGet releases_url) (rest_clock w)) ->
  (no_release body \/ exists o, offers body o /\ ~ newer (of_version o)) ->
  do_check dir (rest_clock w) = (check_timestamp dir ;;; ret (Err ErrNoUpdate))%st w1.
Proof.
  intros Hnet Hcl -> Hb. destruct (rest_clock_same w) as (_ & _ & R3). rewrite <- R3 in Hnet.
  unfold do_check, bind at 1, fetch_info, bind at 1, http_get. change github_releases with releases_url.
  assert (E : exists c u, releases_url = c :: u) by (eexists; eexists; reflexivity). destruct E as (c & u & ->).
  rewrite Hnet. unfold lift. destruct Hb as [Hb|(o & Ho & Hn)].
  - apply read_none in Hb. rewrite Hb. reflexivity.
  - rewrite (offers_read _ _ Ho). rewrite <- info_newer in Hn. apply not_true_iff_false in Hn. rewrite Hn. reflexivity.
Qed.

(** An answer without a newer release makes no difference to a command: whatever else the list says, the outcome,
    what is shown and requested and every file are the same. *)
Theorem C89_answers_alike : forall C U tz O Y T render dir c w w' body body' rest cfg t ts,
  c <> CmdUpdate -> c <> CmdVersion -> settings Y w dir cfg -> cfg_notify cfg = true ->
  w_clock w = t :: ts -> due w dir t (cfg_period cfg) ->
  w_net w = NetBody body true :: rest -> w' = set_net (NetBody body' true :: rest) w ->
  (no_release body \/ exists o, offers body o /\ ~ newer (of_version o)) ->
  (no_release body' \/ exists o, offers body' o /\ ~ newer (of_version o)) ->
  process C U tz O Y T render dir c w = process C U tz O Y T render dir c w'.
Proof.
  intros C U tz O Y T render dir c w w' body body' rest cfg t ts Hc Hv (m & Hm & Ha & Hcfg) Hn Hcl Hdue Hnet -> Hb Hb'.
  rewrite !process_run. cbn [set_net w_disk]. rewrite Hm.
  destruct (run_split C U tz O Y T render dir c Hc Hv) as (k & Hk). rewrite !(Hk (MkApp _ m init) Ha). unfold bind.
  rewrite !(cli_check_on dir (MkApp _ m init) cfg Hcfg Hn). cbn [a_world a_conf a_vault].
  rewrite (due_check dir w t ts _ Hcl Hdue).
  rewrite (due_check dir (set_net (NetBody body' true :: rest) w) t ts _ Hcl Hdue).
  rewrite (alike_check dir w _ body rest t ts Hnet Hcl eq_refl Hb).
  rewrite (alike_check dir (set_net (NetBody body' true :: rest) w) _ body' rest t ts eq_refl Hcl eq_refl Hb').
  assert (E : set_net rest (add_event (EGet releases_url) (rest_clock (set_net (NetBody body' true :: rest) w))) =
    set_net rest (add_event (EGet releases_url) (rest_clock w))) by (unfold rest_clock, now; cbn [set_net w_clock]; now rewrite Hcl).
  rewrite E. reflexivity.
Qed.
Print Assumptions C89_answers_alike.

(** The newest release is 1.4.0, which is announced; if it were 1.3.1, or there were none, nothing would be said. *)
Example C89_alike_example : forall ts net,
  let w := on_world1 (1641124800000000000 :: ts)%Z (NetBody (release (b "1.4.0")) true :: net) in
  (exists cfg, settings toy_yaml w (b "/c") cfg /\ cfg_notify cfg = true /\ due w (b "/c") 1641124800000000000 (cfg_period cfg)) /\
  answer w 0 (release (b "1.4.0")) /\
  (exists o, offers (release (b "1.4.0")) o /\ of_version o = b "1.4.0" /\ newer (of_version o)) /\
  (exists o, offers (release (b "1.3.1")) o /\ ~ newer (of_version o)) /\ no_release (b "null").
Proof.
  intros ts net w. split; [|split; [reflexivity|split; [|split]]].
  - destruct (on_world_settings (1641124800000000000 :: ts)%Z (NetBody (release (b "1.4.0")) true :: net)) as (cfg & H1 & H2 & H3).
    exists cfg. split; [exact H1|]. split; [exact H2|]. rewrite H3. right. exists 1641038400%Z. split; [apply on_world_last|].
    split; [vm_compute; discriminate|]. split; vm_compute; discriminate.
  - assert (E : exists info, read_releases (release (b "1.4.0")) = Ok (Val (Some info)) /\ ui_version info = b "1.4.0" /\ ui_newer info = true)
      by (eexists; split; [vm_compute; reflexivity|split; reflexivity]).
    destruct E as (info & E1 & E2 & E3). apply read_offers in E1. destruct E1 as [E1 E4]. exists (offer_of info).
    split; [exact E1|]. split; [exact E2|]. apply E4, E3.
  - assert (E : exists info, read_releases (release (b "1.3.1")) = Ok (Val (Some info)) /\ ui_newer info = false)
      by (eexists; split; [vm_compute; reflexivity|reflexivity]).
    destruct E as (info & E1 & E3). apply read_offers in E1. destruct E1 as [E1 E4]. exists (offer_of info).
    split; [exact E1|]. rewrite <- E4, E3. discriminate.
  - left. vm_compute. reflexivity.
Qed.
