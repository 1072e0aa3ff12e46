(** Properties of reading a vault (C10-C12, C15-C19, C30-C34, C36, C37).  The
    OPVault format is in Spec_Vault.v, a writer of it in Spec_Writer.v; a
    concrete vault in Toy.v shows that the hypotheses can be met, and
    [written_vault] (WriterProof.v) that they are met for all contents. *)
From Verif Require Import Base Utf8 GoStrings GoStringsProof Base64 Spec_Base64 Base64Proof Float64
  Float64Proof Json Spec_Json JsonProof JsonPrint Crypto Spec_Crypto CryptoProof Path Fs FsProof Domain
  DomainProof Spec_Domain KeyService Repos ItemService Spec_Item ItemProof Session SessionProof
  Spec_Vault VaultProof OpenProof Spec_Writer WriterProof Toy.

(** Validate, then Unlock, in a new process. *)
Definition opening (O : oracles) (D : disk) (path password : bytes) : list event :=
  [(O, D, OpValidate path); (O, D, OpUnlock path password)].

Lemma opening_run C U tz O D path password s :
  run C U tz (opening O D path password) init = Ok (s, [RError None; RError None]) <->
  exists s1, validate D path init = Ok (s1, None) /\ unlock C U tz O D path password s1 = Ok (s, None).
Proof.
  unfold opening. cbn [run step]. split.
  - intros H. apply rbind_ok in H. destruct H as ([s1 r1] & H1 & H).
    apply rbind_ok in H1. destruct H1 as ([s1' e1] & Hv & H1). injection H1 as <- <-.
    cbn [fst snd] in H. apply rbind_ok in H. destruct H as ([s2 r2] & H2 & H).
    apply rbind_ok in H2. destruct H2 as ([s2' r2'] & H2 & H3).
    apply rbind_ok in H2. destruct H2 as ([s3 e3] & Hu & H2). injection H2 as <- <-.
    cbn [fst snd rbind] in H3. injection H3 as <- <-. cbn [fst snd] in H. injection H as <- -> ->.
    eauto.
  - intros (s1 & Hv & Hu). rewrite Hv. cbn [rbind fst snd]. rewrite Hu. reflexivity.
Qed.

Lemma opening_reachable C U tz O D path password s r :
  oracles_ok O -> run C U tz (opening O D path password) init = Ok (s, r) -> reachable C U tz s.
Proof.
  intros HO H. exists (opening O D path password), r. split; [|exact H].
  repeat (apply Forall_cons; [exact HO|]). constructor.
Qed.

Lemma opening_inv C U tz O D path password s1 s :
  oracles_ok O -> validate D path init = Ok (s1, None) ->
  unlock C U tz O D path password s1 = Ok (s, None) -> inv s.
Proof.
  intros HO H1 H2. apply (reachable_inv C U tz).
  apply (opening_reachable C U tz O D path password s [RError None; RError None] HO).
  apply opening_run. eauto.
Qed.

(** ** C10: the right password opens the vault, with the keys it was written with. *)
Theorem C10_right_password_opens : forall C U, crypto_ok C -> unicode_ok U ->
  forall tz O D path password ks items,
  oracles_ok O -> vault_at C U tz D path password ks items ->
  exists s, run C U tz (opening O D path password) init = Ok (s, [RError None; RError None]) /\
            is_unlocked s = true /\ st_keys s = Some ks.
Proof.
  intros C U HC HU tz O D path password ks items HO Hv.
  destruct (open_vault C HC U HU tz O D path password ks items init HO Hv) as (p & l' & H1 & H2 & Hp);
    try reflexivity.
  eexists. split; [apply opening_run; eauto|]. auto.
Qed.
Print Assumptions C10_right_password_opens.

(** For every password and set of items there is such a vault. *)
Example C10_example :
  (forall C U tz password w bands items, crypto_ok C ->
     secrets_ok w -> bands_ok bands -> Forall2 (shown_as U tz) (concat (map snd bands)) items ->
     vault_at C U tz (write_disk C (b "v") password w bands) (b "/v") password
              (keys_of C password w) items) /\
  vault_at toy_crypto latin1 utc demo_disk (b "/v") (b "freddy") demo_keys demo_items.
Proof.
  split; [|exact demo_vault]. intros. apply (written_vault C H U tz (b "v") demo_dir_plain); auto.
  repeat (constructor; [vm_compute; intuition discriminate|]). constructor.
Qed.

(** ** C11: success only if both blobs of the profile authenticate under the MAC key
    derived from the password; every other answer is "invalid password". *)
Theorem C11_password_authenticated : forall C U tz O D path password s s' e,
  unlock C U tz O D path password s = Ok (s', e) ->
  (e = None ->
   exists p salt iterations st mt ot m o,
     st_profile s = Some p /\
     has_str (b "salt") p st /\ b64_decode st = (salt, true) /\
     mget (b "iterations") p = Some (JNum iterations) /\
     has_str (b "masterKey") p mt /\ b64_decode mt = (m, true) /\
     has_str (b "overviewKey") p ot /\ b64_decode ot = (o, true) /\
     let mac := skipn 32 (pbkdf2 C password salt (f64_to_int64 iterations)) in
     authentic C mac m /\ authentic C mac o) /\
  (e <> None -> e = Some ErrInvalidPass).
Proof.
  intros C U tz O D path password s s' e H. split.
  - intros ->. apply unlock_inv in H. destruct H as (ks & l & Hk & _).
    unfold unlock_keys in Hk. apply rbind_ok in Hk. destruct Hk as ([[dk dm]|e] & Hd & Hk); [|discriminate].
    apply rbind_ok in Hk. destruct Hk as ([[mk mm]|e] & Hm & Hk); [|discriminate].
    apply rbind_ok in Hk. destruct Hk as ([[ok om]|e] & Ho & Hk); [|discriminate].
    unfold derived_keys, get_iterations, get_salt in Hd.
    apply rbind_ok in Hd. destruct Hd as (it & Hi & Hd).
    apply rbind_ok in Hi. destruct Hi as (f & Hf & Hi).
    apply rbind_ok in Hd. destruct Hd as (st & Hs & Hd).
    destruct (b64_decode st) as [salt [|]] eqn:Es; [|discriminate].
    apply val_pair_inv in Hd. destruct Hd as [Hdk Hdm].
    unfold master_keys, get_master_key in Hm. apply rbind_ok in Hm. destruct Hm as (mt & Hmt & Hm).
    destruct (b64_decode mt) as [m [|]] eqn:Em; [|discriminate].
    unfold overview_keys, get_overview_key in Ho. apply rbind_ok in Ho. destruct Ho as (ot & Hot & Ho).
    destruct (b64_decode ot) as [o [|]] eqn:Eo; [|discriminate].
    destruct (st_profile s) as [p|]; [|discriminate Hf].
    injection Hi as <-.
    exists p, salt, f, st, mt, ot, m, o.
    split; [reflexivity|]. split; [now apply as_str_has|]. split; [exact Es|].
    split; [now apply as_num_has|]. split; [now apply as_str_has|]. split; [exact Em|].
    split; [now apply as_str_has|]. split; [exact Eo|].
    cbn zeta. rewrite <- Hdm.
    split; [apply (decode_keys_authentic C _ dk _ _ Hm)|apply (decode_keys_authentic C _ dk _ _ Ho)].
  - intros Hne. destruct e as [e|]; [|congruence]. apply unlock_error_state in H. destruct H as [_ ->].
    reflexivity.
Qed.
Print Assumptions C11_password_authenticated.

(** If the master blob does not authenticate, the answer is "invalid password". *)
Theorem C11_wrong_password_refused : forall C U tz O D path password s p salt iterations st mt m,
  st_profile s = Some p ->
  has_str (b "salt") p st -> b64_decode st = (salt, true) ->
  mget (b "iterations") p = Some (JNum iterations) ->
  has_str (b "masterKey") p mt -> b64_decode mt = (m, true) -> 32 <= length m ->
  ~ authentic C (skipn 32 (pbkdf2 C password salt (f64_to_int64 iterations))) m ->
  unlock C U tz O D path password s = Ok (s, Some ErrInvalidPass).
Proof.
  intros C U tz O D path password s p salt f st mt m Hp Hs Es Hi Hm Em Hl Ha.
  unfold unlock, unlock_keys, derived_keys, get_iterations, get_salt. rewrite Hp.
  rewrite (mget_jget _ _ _ Hi), (mget_jget _ _ _ Hs). cbn [as_num as_str rbind]. rewrite Es. cbn [rbind].
  unfold master_keys, get_master_key. rewrite (mget_jget _ _ _ Hm). cbn [as_str rbind]. rewrite Em.
  rewrite decode_keys_auth; [reflexivity|exact Hl|]. intros E. apply Ha.
  exists (firstn (length m - 32) m). rewrite E. symmetry. apply firstn_skipn.
Qed.
Print Assumptions C11_wrong_password_refused.

Example C11_example :
  let s1 := MkState (Some (write_profile toy_crypto (b "freddy") demo_secrets)) None None registry in
  validate demo_disk (b "/v") init = Ok (s1, None) /\
  unlock toy_crypto latin1 utc forwards demo_disk (b "/v") (b "wrong") s1 = Ok (s1, Some ErrInvalidPass).
Proof. split; vm_compute; reflexivity. Qed.

(** ** C12: after a refused unlock everything is as before: every continuation runs
    the same way. *)
Theorem C12_refused_unlock : forall C U tz O D path password s s' e,
  unlock C U tz O D path password s = Ok (s', Some e) ->
  forall h, run C U tz h s' = run C U tz h s.
Proof. intros. apply unlock_error_state in H. destruct H as [-> _]. reflexivity. Qed.
Print Assumptions C12_refused_unlock.

(** A session with the vault open, asked to open it again with a wrong password. *)
Example C12_example :
  exists s, reachable toy_crypto latin1 utc s /\ count_items None false s = 2 /\
    unlock toy_crypto latin1 utc backwards demo_disk (b "/v") (b "wrong") s = Ok (s, Some ErrInvalidPass).
Proof.
  let v := eval vm_compute in (run toy_crypto latin1 utc (opening forwards demo_disk (b "/v") (b "freddy")) init) in
    match v with Ok (?s, _) => exists s end.
  split; [|split; vm_compute; reflexivity].
  exists (opening forwards demo_disk (b "/v") (b "freddy")), [RError None; RError None].
  split; [repeat (apply Forall_cons; [exact forwards_ok|]); constructor|]. vm_compute. reflexivity.
Qed.

(** ** C15, refuted: what an entry says outside its encrypted parts is believed.
    [forge] needs no key, and the forged vault opens with the right password and
    shows the forged category, dates and trash state. *)
Lemma forge_entry C U tz ks uid e i x :
  metadata_ok x -> entry_for C U tz ks uid e i -> entry_for C U tz ks uid (forge x e) (forged_item x i).
Proof.
  intros (Hx & Hx1 & Hx2) [Hu Hc (m & ikey & imac & ov & de & -> & Hik & Him & Hcat & Hcr & Hcrr &
    Hup & Hupr & Htr & (h & Hh) & (kt & kiv & Hk & Hkiv & Hkw) & (ot & Ho & Hos) & (dt & Hd & Hds) &
    H1 & H2 & H3 & H4)].
  constructor; cbn [forged_item it_uid it_cat]; [exact Hu|exact Hx|].
  eexists. exists ikey, imac, ov, de. cbn [forge]. split; [reflexivity|].
  split; [exact Hik|]. split; [exact Him|].
  cbn [it_created it_updated it_trashed it_title it_url it_notes it_sections].
  unfold has_str. rewrite !mget_mset.
  split; [reflexivity|]. split; [reflexivity|]. split; [exact Hx1|].
  split; [reflexivity|]. split; [exact Hx2|]. split; [right; reflexivity|].
  split; [exists (me_hmac x); reflexivity|].
  split; [exists kt, kiv; split; [exact Hk|auto]|].
  split; [exists ot; split; [exact Ho|exact Hos]|].
  split; [exists dt; split; [exact Hd|exact Hds]|]. auto.
Qed.

Theorem C15_metadata_authenticated_refuted : forall C U, crypto_ok C -> unicode_ok U ->
  forall tz O D path password ks L p bands items (x : bytes -> metadata),
  oracles_ok O -> (forall uid, metadata_ok (x uid)) ->
  Forall2 (fun e i => entry_for C U tz ks (fst e) (snd e) i) (entries_of bands) items ->
  (* the disk holds the vault with every entry forged *)
  forall bands', entries_of bands' = map (fun e => (fst e, forge (x (fst e)) (snd e))) (entries_of bands) ->
  vault_dir D path L -> plain_path path -> profile_at D L p -> profile_for C password p ks ->
  bands_at D L bands' ->
  exists s, run C U tz (opening O D path password) init = Ok (s, [RError None; RError None]) /\
    forall i, In i items ->
      get_item (it_uid i) (me_trashed (x (it_uid i))) s = Some (forged_item (x (it_uid i)) i).
Proof.
  intros C U HC HU tz O D path password ks L p bands items x HO Hx Hi bands' E Hv Hp Hpr Hpf Hb.
  assert (Hf : vault_at C U tz D path password ks (map (fun i => forged_item (x (it_uid i)) i) items)).
  { constructor. exists L, p, bands'. repeat (split; [assumption|]). rewrite E. clear -Hx Hi.
    induction Hi as [|[u e] i es items H Hi IH]; [constructor|]. cbn [map fst snd] in *.
    apply if_item; [|exact IH]. assert (Hu := en_uid _ _ _ _ _ _ _ _ H). rewrite Hu.
    apply (forge_entry C U tz ks u e i (x u) (Hx u) H). }
  destruct (open_vault C HC U HU tz O D path password ks _ init HO Hf) as (p' & l' & H1 & H2 & Hperm);
    try reflexivity.
  eexists. split; [apply opening_run; eauto|].
  intros i Hin. unfold get_item. cbn [st_items].
  assert (Hr := opening_inv C U tz O D path password _ _ HO H1 H2). apply find_first_spec; [apply (inv_uids _ Hr)|].
  split; [|split; reflexivity]. cbn [items_list st_items].
  apply (Permutation_in _ (Permutation_sym Hperm)). apply in_map_iff. exists i. auto.
Qed.
Print Assumptions C15_metadata_authenticated_refuted.

(** Every written vault can be forged so. *)
Example C15_example :
  exists D bands', D = put_disk (b "v") (profile_text (write_profile toy_crypto (b "freddy") demo_secrets))
    (map (fun nb => (fst nb, b "ld({" ++ print_members (snd nb) ++ b "});")) bands') /\
  let x := MkMeta (Cat (b "001") (b "Login")) 1 2 false (b "?") in
  metadata_ok x /\
  entries_of bands' = map (fun e => (fst e, forge x (snd e)))
    (write_members toy_crypto demo_keys (concat (map snd demo_bands))) /\
  vault_dir D (b "/v") [b "v"] /\ profile_at D [b "v"] (write_profile toy_crypto (b "freddy") demo_secrets) /\
  bands_at D [b "v"] bands'.
Proof.
  set (x := MkMeta (Cat (b "001") (b "Login")) 1 2 false (b "?")).
  exists (put_disk (b "v") (profile_text (write_profile toy_crypto (b "freddy") demo_secrets))
    (map (fun nb => (fst nb, b "ld({" ++ print_members (snd nb) ++ b "});"))
       (map (fun nb => (fst nb, map (fun e => (fst e, forge x (snd e)))
                                    (write_members toy_crypto demo_keys (snd nb)))) demo_bands))).
  exists (map (fun nb => (fst nb, map (fun e => (fst e, forge x (snd e)))
                                    (write_members toy_crypto demo_keys (snd nb)))) demo_bands).
  split; [reflexivity|]. cbn zeta.
  split; [split; [simpl; auto|unfold in_2_53; simpl; lia]|].
  split; [reflexivity|].
  split; [apply (put_disk_dir (b "v") demo_dir_plain)|].
  split.
  { eexists. split; [apply (write_profile_at toy_crypto), demo_secrets_ok|]. apply put_disk_profile. }
  apply (put_disk_bands (b "v") _ _ (fun ms => b "ld({" ++ print_members ms ++ b "});")).
  - repeat constructor.
  - assert (P : forall l, Forall storable l -> l <> [] ->
        band_text (map (fun e => (fst e, forge x (snd e))) (write_members toy_crypto demo_keys l))
          (b "ld({" ++ print_members (map (fun e => (fst e, forge x (snd e))) (write_members toy_crypto demo_keys l)) ++ b "});")).
    { intros l Hl Hne. exists 1. eexists. split; [vm_compute; discriminate|]. split; [|reflexivity].
      apply print_members_text; [apply print_json_text| |].
      - unfold write_members. rewrite map_map. apply Forall_map. eapply Forall_impl; [|exact Hl].
        intros s [Hu _ _ _ _ _ _]. cbn [fst snd]. split; [exact Hu|].
        unfold write_entry. cbn [forge]. apply pr_obj; [apply nodupb_ok; reflexivity|].
        repeat (apply Forall_cons; [cbn [fst snd]; split; [apply ascii_valid_utf8; reflexivity|]|]).
        9: constructor.
        1: constructor; apply ascii_valid_utf8; reflexivity.
        1,7: constructor; unfold in_2_53; simpl; lia.
        5: constructor.
        2: constructor; apply ascii_valid_utf8; reflexivity.
        all: constructor; apply b64_encode_utf8.
      - destruct l; [congruence|discriminate]. }
    assert (Hb := demo_bands_ok). destruct Hb as [_ Hn _ _].
    assert (Hst := demo_storable).
    inversion Hst as [|? ? S1 Hst1]; subst. inversion Hst1 as [|? ? S2 Hst2]; subst.
    inversion Hn as [|? ? [N1 _] Hn1]; subst. inversion Hn1 as [|? ? [N2 _] _]; subst.
    cbn [map demo_bands fst snd] in *. repeat apply Forall_cons; [| |constructor]; cbn [fst snd].
    + split; [exact N1|]. apply (P [demo_login; demo_note]); [auto|discriminate].
    + split; [exact N2|]. apply (P [demo_card]); [auto|discriminate].
Qed.

(** ** C16: every item of a vault is found, exactly as it was stored. *)
Theorem C16_items_decoded : forall C U, crypto_ok C -> unicode_ok U ->
  forall tz O D path password ks items,
  oracles_ok O -> vault_at C U tz D path password ks items ->
  exists s, run C U tz (opening O D path password) init = Ok (s, [RError None; RError None]) /\
    (forall i, In i items -> get_item (it_uid i) (it_trashed i) s = Some i) /\
    (forall uid trashed i, get_item uid trashed s = Some i ->
       In i items /\ it_uid i = uid /\ it_trashed i = trashed) /\
    count_items None false s + count_items None true s = length items.
Proof.
  intros C U HC HU tz O D path password ks items HO Hv.
  destruct (open_vault C HC U HU tz O D path password ks items init HO Hv) as (p & l' & H1 & H2 & Hp);
    try reflexivity.
  eexists. split; [apply opening_run; eauto|].
  assert (Hr := opening_inv C U tz O D path password _ _ HO H1 H2).
  assert (Hn := inv_uids _ Hr). split; [|split].
  - intros i Hi. apply find_first_spec; [exact Hn|]. split; [|auto].
    apply (Permutation_in _ (Permutation_sym Hp)). exact Hi.
  - intros u t i H. apply find_first_spec in H; [|exact Hn]. destruct H as (Hi & H).
    split; [apply (Permutation_in _ Hp Hi)|exact H].
  - rewrite <- (Permutation_length Hp). unfold count_items, count_by. cbn [st_items items_list].
    clear. induction l' as [|i l IH]; [reflexivity|]. simpl in *.
    destruct (it_trashed i); simpl; lia.
Qed.
Print Assumptions C16_items_decoded.

Example C16_example :
  vault_at toy_crypto latin1 utc demo_disk (b "/v") (b "freddy") demo_keys demo_items /\
  length demo_items = 3 /\ oracles_ok backwards.
Proof. split; [exact demo_vault|]. split; [reflexivity|exact backwards_ok]. Qed.

(** ** C17: what does not authenticate is not shown: a damaged overview gives no
    title and no URL, a damaged details blob no notes and no sections. *)
Theorem C17_unauthenticated_not_shown : forall C U, crypto_ok C ->
  forall tz O D path L bands password s s' uid m,
  oracles_ok O -> vault_dir D path L -> plain_path path -> bands_at D L bands ->
  reachable C U tz s -> st_items s = None ->
  unlock C U tz O D path password s = Ok (s', None) ->
  mget uid (entries_of bands) = Some (JObj m) ->
  forall trashed i ks, get_item uid trashed s' = Some i -> st_keys s' = Some ks ->
  (forall t, has_str (b "o") m t -> damaged C (k_overview_mac ks) t ->
     it_title i = [] /\ it_url i = []) /\
  (forall t iv ikey imac kt, has_str (b "d") m t -> has_str (b "k") m kt ->
     length iv = 16 -> length ikey = 32 -> length imac = 32 ->
     (let body := iv ++ cbc_enc C (k_master ks) iv (ikey ++ imac) in
      wrapped kt (b64_encode (body ++ hmac256 C (k_master_mac ks) body))) ->
     damaged C imac t -> it_notes i = [] /\ it_sections i = []).
Proof.
  intros C U HC tz O D path L bands password s s' uid m HO Hv Hp Hb Hs Hsi Hu Hm trashed i ks Hi Hks.
  apply reachable_inv in Hs. assert (Hreg := inv_reg _ Hs).
  apply unlock_inv in Hu. destruct Hu as (ks' & l & Hk & Hd & ->). cbn [st_keys] in Hks.
  injection Hks as ->. rewrite Hsi in Hi. cbn [store_items] in Hi.
  assert (Hwf := decode_items_wf C U tz O D (st_reg s) path ks l HO Hreg Hd). destruct Hwf as [Hn _].
  apply find_first_spec in Hi; [|exact Hn]. cbn [items_list st_items] in Hi. destruct Hi as (Hin & Hui & _).
  destruct (decode_items_pairs C U tz O D path L bands (st_reg s) ks l HO Hv Hp Hb Hd) as (ros & Hperm & Hall & ->).
  apply somes_in in Hin. apply in_map_iff in Hin. destruct Hin as ([[u e] o] & Eo & Hin). cbn [snd] in Eo. subst o.
  rewrite Forall_forall in Hall. destruct (Hall _ Hin) as (raw & Hr & Hdi). cbn [fst snd] in Hr, Hdi.
  destruct (decoded_meta C U tz (st_reg s) ks u e raw i Hreg Hr Hdi) as [Hu' _].
  assert (Ee : e = JObj m).
  { assert (Hin' : In (u, e) (entries_of bands)).
    { apply (Permutation_in _ Hperm), in_map_iff. exists ((u, e), Some i). auto. }
    assert (Hnd : NoDup (map fst (entries_of bands))) by apply obj_of_NoDup.
    apply In_mget in Hin'; [|exact Hnd]. congruence. }
  subst e. apply raw_of_entry_inv in Hr.
  destruct Hr as (_ & m' & cr & up & Em & _ & _ & _ & _ & _ & _ & Hdt & Hkt & Hot).
  injection Em as <-.
  assert (Hkl : length (k_master ks) = 32).
  { exact (proj1 (unlock_keys_len C (st_profile s) password ks HC Hk)). }
  unfold decode_item in Hdi. destruct (cat_from_code (st_reg s) (r_cat raw)) as [c|err]; [|discriminate].
  apply rbind_ok in Hdi. destruct Hdi as (ov & Hov & Hdi).
  apply rbind_ok in Hdi. destruct Hdi as (de & Hde & Hdi).
  apply rbind_ok in Hdi. destruct Hdi as (se & Hse & Hdi).
  apply rbind_ok in Hdi. destruct Hdi as (ti & Hti & Hdi).
  apply rbind_ok in Hdi. destruct Hdi as (ur & Hur & Hdi).
  apply rbind_ok in Hdi. destruct Hdi as (no & Hno & Hdi). injection Hdi as <-.
  cbn [it_title it_url it_notes it_sections]. split.
  - intros t Ht (data & Hw & Hl & Ha). assert (Et : r_overview raw = t) by (unfold has_str in *; congruence).
    unfold decode_overview in Hov. rewrite Et, (b64_decode_wrapped _ _ Hw) in Hov. cbn [fst] in Hov.
    rewrite (decode_opdata_refuse C data _ _ Hl (not_authentic C _ _ Ha)) in Hov. injection Hov as <-.
    change (Ok (@nil ascii) = Ok ti) in Hti. change (Ok (@nil ascii) = Ok ur) in Hur. split; congruence.
  - intros t iv ikey imac kt Ht Hk' Hiv Hik Him Hkw (data & Hw & Hl & Ha).
    assert (Et : r_details raw = t) by (unfold has_str in *; congruence).
    assert (Ek : r_keys raw = kt) by (unfold has_str in *; congruence).
    unfold decode_details in Hde. cbn zeta in Hkw. rewrite <- Ek in Hkw.
    rewrite (item_keys_written C HC raw ks iv ikey imac
      (hmac256 C (k_master_mac ks) (iv ++ cbc_enc C (k_master ks) iv (ikey ++ imac))) (r_keys raw)) in Hde;
      auto using aes_key_ok_32; [|apply (hmac_len C HC)].
    cbn [rbind fst snd] in Hde. rewrite Et, (b64_decode_wrapped _ _ Hw) in Hde. cbn [fst] in Hde.
    rewrite (decode_opdata_refuse C data _ _ Hl (not_authentic C _ _ Ha)) in Hde. injection Hde as <-.
    change (Ok (@nil item_section) = Ok se) in Hse. change (Ok (@nil ascii) = Ok no) in Hno. split; congruence.
Qed.
Print Assumptions C17_unauthenticated_not_shown.

(** Forty-eight bytes that no key of the toy instance authenticates, and a vault
    (C19_partial_example below) in which they stand for the details of an item. *)
Lemma noise_damaged mac : damaged toy_crypto mac (b64_encode (repeat "x"%char 48)).
Proof.
  exists (repeat "x"%char 48). split; [apply wrapped_refl|]. split; [simpl; lia|].
  intros (body & Hbody).
  assert (Hl : length body = 16).
  { apply (f_equal (@length ascii)) in Hbody. rewrite app_length, (hmac_len toy_crypto toy_crypto_ok) in Hbody.
    simpl in Hbody. lia. }
  assert (Hb2 : body = repeat "x"%char 16).
  { rewrite <- (firstn_app_exact body (hmac256 toy_crypto mac body) 16) by auto.
    rewrite <- Hbody. reflexivity. }
  apply (f_equal (skipn 16)) in Hbody.
  rewrite (skipn_app_exact body) in Hbody by auto.
  apply (f_equal (skipn 4)) in Hbody. vm_compute in Hbody. discriminate.
Qed.

Example C17_example : forall mac, exists t, damaged toy_crypto mac t.
Proof. intros mac. eexists. apply noise_damaged. Qed.

(** ** C18: no item is lost, invented or merged: the items of an opened vault are its
    entries of known categories, one for each uid, with the category, dates and
    trash state of the entry. *)
Theorem C18_one_item_per_entry : forall C U tz O D path L bands password s s',
  oracles_ok O -> vault_dir D path L -> plain_path path -> bands_at D L bands ->
  reachable C U tz s -> st_items s = None ->
  unlock C U tz O D path password s = Ok (s', None) ->
  (forall uid e, mget uid (entries_of bands) = Some e -> known_entry e ->
     exists i, entry_meta e i /\ it_uid i = uid /\
       forall trashed, get_item uid trashed s' = if Bool.eqb (it_trashed i) trashed then Some i else None) /\
  (forall uid trashed i, get_item uid trashed s' = Some i ->
     exists e, mget uid (entries_of bands) = Some e /\ known_entry e /\ entry_meta e i /\
               it_uid i = uid /\ it_trashed i = trashed).
Proof.
  intros C U tz O D path L bands password s s' HO Hv Hp Hb Hs Hsi Hu.
  apply reachable_inv in Hs. assert (Hreg := inv_reg _ Hs).
  apply unlock_inv in Hu. destruct Hu as (ks & l & Hk & Hd & ->).
  assert (Hwf := decode_items_wf C U tz O D (st_reg s) path ks l HO Hreg Hd). destruct Hwf as [Hn _].
  destruct (decode_items_pairs C U tz O D path L bands (st_reg s) ks l HO Hv Hp Hb Hd) as (ros & Hperm & Hall & El).
  assert (Hnd : NoDup (map fst (entries_of bands))) by apply obj_of_NoDup.
  rewrite Forall_forall in Hall. unfold get_item. cbn [st_items]. rewrite Hsi. cbn [store_items]. split.
  - intros uid e He Hkn. apply mget_In in He.
    apply (Permutation_in _ (Permutation_sym Hperm)) in He. apply in_map_iff in He.
    destruct He as ([e' o] & Ee & Hin). cbn [fst] in Ee. subst e'.
    destruct (Hall _ Hin) as (raw & Hr & Hdi). cbn [fst snd] in Hr, Hdi.
    destruct o as [i|]; [|exfalso; exact (decoded_known C U tz _ ks uid e raw Hreg Hr Hkn Hdi)].
    destruct (decoded_meta C U tz _ ks uid e raw i Hreg Hr Hdi) as [Hui Hme].
    exists i. split; [exact Hme|]. split; [exact Hui|]. intros tr.
    assert (Hil : In i l).
    { rewrite El. apply somes_in, in_map_iff. exists ((uid, e), Some i). auto. }
    destruct (Bool.eqb (it_trashed i) tr) eqn:Et.
    + apply Bool.eqb_prop in Et. apply find_first_spec; [exact Hn|]. auto.
    + destruct (find_first uid tr (Some l)) as [j|] eqn:Ej; [|reflexivity].
      apply find_first_spec in Ej; [|exact Hn]. destruct Ej as (Hj & Huj & Htj).
      assert (E : j = i) by (apply (nodup_uid_eq l); auto; congruence). subst j.
      rewrite Htj, Bool.eqb_reflx in Et. discriminate.
  - intros uid tr i Hi. apply find_first_spec in Hi; [|exact Hn]. destruct Hi as (Hin & Hui & Ht).
    cbn [items_list] in Hin. rewrite El in Hin. apply somes_in in Hin. apply in_map_iff in Hin.
    destruct Hin as ([[u e] o] & Eo & Hin). cbn [snd] in Eo. subst o.
    destruct (Hall _ Hin) as (raw & Hr & Hdi). cbn [fst snd] in Hr, Hdi.
    destruct (decoded_meta C U tz (st_reg s) ks u e raw i Hreg Hr Hdi) as [Hu' Hme].
    assert (Hin' : In (u, e) (entries_of bands)).
    { apply (Permutation_in _ Hperm), in_map_iff. exists ((u, e), Some i). auto. }
    apply In_mget in Hin'; [|exact Hnd]. exists e. split; [congruence|].
    split; [|auto]. destruct Hme as (m & cr & up & -> & Hc & Hpub & _).
    exists m, (cat_code (it_cat i)). split; [reflexivity|]. split; [exact Hc|].
    apply in_map_iff. exists (cat_code (it_cat i), cat_name (it_cat i)). auto.
Qed.
Print Assumptions C18_one_item_per_entry.

(** The demonstration vault meets the hypotheses. *)
Lemma demo_opened :
  exists s1 s2 bands, reachable toy_crypto latin1 utc s1 /\ st_items s1 = None /\
    vault_dir demo_disk (b "/v") [b "v"] /\ plain_path (b "/v") /\ bands_at demo_disk [b "v"] bands /\
    length (entries_of bands) = 3 /\
    unlock toy_crypto latin1 utc backwards demo_disk (b "/v") (b "freddy") s1 = Ok (s2, None).
Proof.
  destruct (open_vault toy_crypto toy_crypto_ok latin1 latin1_ok utc backwards demo_disk (b "/v") (b "freddy")
    demo_keys demo_items init backwards_ok demo_vault) as (p & l' & H1 & H2 & _); try reflexivity.
  destruct (written_layout toy_crypto (b "v") demo_dir_plain (b "freddy") demo_secrets demo_bands
    demo_secrets_ok demo_bands_ok) as (V1 & V2 & V3 & V4).
  do 2 eexists. exists (map (fun nb => (fst nb, write_members toy_crypto demo_keys (snd nb))) demo_bands).
  split; [|split; [|split; [|split; [|split; [|split]]]]].
  7: exact H2.
  - exists [(backwards, demo_disk, OpValidate (b "/v"))], [RError None].
    split; [constructor; [exact backwards_ok|constructor]|]. cbn [run step]. rewrite H1. reflexivity.
  - reflexivity.
  - exact V1.
  - repeat (constructor; [vm_compute; intuition discriminate|]). constructor.
  - exact V3.
  - reflexivity.
Qed.

(** ** C19, refuted: one entry that lacks a part, or has it with another type, keeps
    the whole vault from opening with its right password. *)
Theorem C19_damage_isolated_refuted : forall C U tz O D path L p bands password ks uid e,
  oracles_ok O -> crypto_ok C ->
  vault_dir D path L -> plain_path path -> profile_at D L p -> profile_for C password p ks ->
  bands_at D L bands -> mget uid (entries_of bands) = Some e -> malformed_entry e ->
  run C U tz (opening O D path password) init = Panic.
Proof.
  intros C U tz O D path L p bands password ks uid e HO HC Hv Hp Hpr Hpf Hb He Hm.
  unfold opening. cbn [run step]. rewrite (validate_at D path L p init Hv Hpr eq_refl). cbn [rbind fst snd].
  rewrite (unlock_malformed C U tz O D path L bands _ password ks HO Hv Hp Hb); [reflexivity| |].
  - cbn [st_profile]. now apply unlock_keys_for.
  - apply Exists_exists. exists (uid, e). split; [now apply mget_In|exact Hm].
Qed.
Print Assumptions C19_damage_isolated_refuted.

(** A band file with the two entries AA (malformed: no "updated") and BB. *)
Definition lacking : list (bytes * json) :=
  [(b "AA", JObj [(b "created", JNum (f64_of_Z 1))]); (b "BB", write_entry toy_crypto demo_keys demo_card)].

Example C19_example :
  let D := put_disk (b "v") (profile_text (write_profile toy_crypto (b "freddy") demo_secrets))
             [(b "band_0.js", b "ld({" ++ print_members lacking ++ b "});")] in
  vault_dir D (b "/v") [b "v"] /\ profile_at D [b "v"] (write_profile toy_crypto (b "freddy") demo_secrets) /\
  profile_for toy_crypto (b "freddy") (write_profile toy_crypto (b "freddy") demo_secrets) demo_keys /\
  bands_at D [b "v"] [(b "band_0.js", lacking)] /\
  exists e, mget (b "AA") (entries_of [(b "band_0.js", lacking)]) = Some e /\ malformed_entry e.
Proof.
  cbn zeta. split; [apply (put_disk_dir (b "v") demo_dir_plain)|].
  split.
  { eexists. split; [apply (write_profile_at toy_crypto), demo_secrets_ok|]. apply put_disk_profile. }
  split; [apply (write_profile_for toy_crypto toy_crypto_ok); exact demo_secrets_ok|].
  split.
  - apply (put_disk_bands (b "v") _ [(b "band_0.js", lacking)] (fun ms => b "ld({" ++ print_members ms ++ b "});")).
    + repeat constructor.
    + constructor; [|constructor]. cbn [fst snd]. split; [apply (demo_name (b "0")); vm_compute; intuition discriminate|].
      exists 1. eexists. split; [vm_compute; discriminate|]. split; [|reflexivity].
      apply print_members_text; [apply print_json_text| |discriminate].
      unfold lacking. constructor; [split; [apply ascii_valid_utf8; reflexivity|]|].
      * apply pr_obj; [apply nodupb_ok; reflexivity|]. constructor; [|constructor].
        split; [apply ascii_valid_utf8; reflexivity|]. constructor. unfold in_2_53. lia.
      * assert (H := write_members_printable toy_crypto demo_keys [demo_card]).
        apply H. assert (Hst := demo_storable).
        inversion Hst as [|? ? _ Hst1]; subst. inversion Hst1 as [|? ? _ Hst2]; subst. exact Hst2.
  - eexists. split; [reflexivity|]. right. eexists. split; [reflexivity|]. right. left.
    intros f. vm_compute. discriminate.
Qed.

(** What does hold: entries whose overview or details do not authenticate cost
    themselves only.  (Missing: entries that lack a part, blobs that authenticate
    but are malformed, blobs shorter than a MAC.) *)
Theorem C19_damage_isolated_partial : forall C U, crypto_ok C -> unicode_ok U ->
  forall tz O D path password ks items,
  oracles_ok O -> vault_with (sealed_or_damaged C) C U tz D path password ks items ->
  exists s, run C U tz (opening O D path password) init = Ok (s, [RError None; RError None]) /\
    forall i, In i items -> get_item (it_uid i) (it_trashed i) s = Some i.
Proof.
  intros C U HC HU tz O D path password ks items HO Hv.
  destruct (open_damaged_vault C HC U HU tz O D path password ks items init HO Hv) as (p & l' & H1 & H2 & Hp);
    try reflexivity.
  eexists. split; [apply opening_run; eauto|].
  assert (Hr := opening_inv C U tz O D path password _ _ HO H1 H2).
  assert (Hn := inv_uids _ Hr). intros i Hi. apply find_first_spec; [exact Hn|]. split; [|auto].
  apply (Permutation_in _ (Permutation_sym Hp)). exact Hi.
Qed.
Print Assumptions C19_damage_isolated_partial.

(** Item BB as stored, item AA with its details overwritten: BB is shown, AA
    without its notes and fields. *)
Definition damaged_members : list (bytes * json) :=
  [(b "AA", match write_entry toy_crypto demo_keys demo_login with
            | JObj m => JObj (mset (b "d") (JStr (b64_encode (repeat "x"%char 48))) m)
            | j => j
            end);
   (b "BB", write_entry toy_crypto demo_keys demo_card)].

Example C19_partial_example :
  let D := put_disk (b "v") (profile_text (write_profile toy_crypto (b "freddy") demo_secrets))
             [(b "band_0.js", b "ld({" ++ print_members damaged_members ++ b "});")] in
  vault_with (sealed_or_damaged toy_crypto) toy_crypto latin1 utc D (b "/v") (b "freddy") demo_keys
    [ MkItem (Cat (b "001") (b "Login")) 1300000000 [] (b "Mail") false [] (b "AA") (b "mail.org") 1400000000;
      MkItem (Cat (b "002") (b "Credit Card")) 1300000001 [] (b "Visa") false
        [MkSection (b "Main") [MkField (b "Pin") (b "1234")]] (b "BB") [] 1400000001 ].
Proof.
  cbn zeta. constructor.
  exists [b "v"], (write_profile toy_crypto (b "freddy") demo_secrets), [(b "band_0.js", damaged_members)].
  assert (Hst := demo_storable).
  inversion Hst as [|? ? S1 Hst1]; subst. inversion Hst1 as [|? ? _ Hst2]; subst.
  inversion Hst2 as [|? ? S3 _]; subst.
  assert (Hsh := demo_shown). unfold demo_items in Hsh. cbn [demo_bands map snd concat app] in Hsh.
  inversion Hsh as [|? ? ? ? A1 Hsh1]; subst. inversion Hsh1 as [|? ? ? ? _ Hsh2]; subst.
  inversion Hsh2 as [|? ? ? ? A3 _]; subst.
  split; [apply (put_disk_dir (b "v") demo_dir_plain)|].
  split; [repeat (constructor; [vm_compute; intuition discriminate|]); constructor|].
  split.
  { eexists. split; [apply (write_profile_at toy_crypto), demo_secrets_ok|]. apply put_disk_profile. }
  split; [apply (write_profile_for toy_crypto toy_crypto_ok); exact demo_secrets_ok|].
  split.
  - apply (put_disk_bands (b "v") _ [(b "band_0.js", damaged_members)] (fun ms => b "ld({" ++ print_members ms ++ b "});")).
    + repeat constructor.
    + constructor; [|constructor]. cbn [fst snd]. split; [apply (demo_name (b "0")); vm_compute; intuition discriminate|].
      exists 1. eexists. split; [vm_compute; discriminate|]. split; [|reflexivity].
      apply print_members_text; [apply print_json_text| |discriminate].
      unfold damaged_members. constructor; [split; [apply ascii_valid_utf8; reflexivity|]|].
      * cbn [snd write_entry]. cbn zeta. apply pr_obj; [apply nodupb_ok; reflexivity|].
        repeat (apply Forall_cons; [cbn [fst snd]; split; [apply ascii_valid_utf8; reflexivity|]|]).
        9: constructor.
        1: constructor; apply ascii_valid_utf8; reflexivity.
        1,7: constructor; unfold in_2_53; simpl; lia.
        5: constructor.
        all: constructor; apply b64_encode_utf8.
      * apply (write_members_printable toy_crypto demo_keys [demo_card]). constructor; [exact S3|constructor].
  - apply if_item; [|apply if_item; [|constructor]].
    + assert (E := write_entry_for toy_crypto latin1 utc demo_keys demo_login _ S1 A1).
      destruct E as [_ Ec (m & ikey & imac & ov & de & Em & E)].
      destruct E as (Hik & Him & Hcat & Hcr & Hcrr & Hup & Hupr & Htr & (h & Hh) &
        (kt & kiv & Hk & Hkiv & Hkw) & (ot & Ho & Hos) & _ & H1 & H2 & _ & _).
      rewrite Em. constructor; [reflexivity|exact Ec|].
      eexists. exists ikey, imac, ov, []. split; [reflexivity|].
      split; [exact Hik|]. split; [exact Him|]. unfold has_str. rewrite !mget_mset.
      split; [exact Hcat|]. split; [exact Hcr|]. split; [exact Hcrr|]. split; [exact Hup|].
      split; [exact Hupr|].
      split; [unfold absent; rewrite !mget_mset; exact Htr|]. split; [exists h; exact Hh|].
      split; [exists kt, kiv; split; [exact Hk|split; [exact Hkiv|exact Hkw]]|].
      split; [exists ot; split; [exact Ho|left; exact Hos]|].
      split.
      { eexists. split; [reflexivity|]. right. split; [reflexivity|].
        apply noise_damaged. }
      split; [exact H1|]. split; [exact H2|].
      split; [left; split; [left; reflexivity|reflexivity]|].
      apply shows_body_none; left; reflexivity.
    + assert (E := write_entry_for toy_crypto latin1 utc demo_keys demo_card _ S3 A3).
      destruct E as [Eu Ec (m & ikey & imac & ov & de & Em & E)].
      destruct E as (Hik & Him & Hcat & Hcr & Hcrr & Hup & Hupr & Htr & Hh &
        Hk & (ot & Ho & Hos) & (dt & Hd & Hds) & E).
      constructor; [exact Eu|exact Ec|]. exists m, ikey, imac, ov, de. repeat (split; [assumption|]).
      split; [exists ot; split; [exact Ho|left; exact Hos]|].
      split; [exists dt; split; [exact Hd|left; exact Hds]|]. exact E.
Qed.
