(** C34, what holds: line breaks inside the brackets of a band file and of the
    profile do no harm (only those outside them end the program). *)
From Verif Require Import Base Utf8 GoStrings GoStringsProof Base64 Spec_Base64 Base64Proof Float64
  Float64Proof Json Spec_Json JsonProof JsonPrint Crypto Spec_Crypto CryptoProof Path Fs FsProof Domain
  DomainProof Spec_Domain KeyService Repos ItemService Spec_Item ItemProof Session SessionProof
  Spec_Vault VaultProof OpenProof Spec_Writer WriterProof Toy Properties_Vault Properties_Layout.

(** A profile with white space after the equals sign and before the semicolon. *)
Definition loose_profile (D : disk) (L : loc) (p : gmap json) : Prop :=
  exists w t w', wsp w /\ wsp w' /\ json_doc (JObj p) t /\
    file_at D (in_default (b "profile.js") L) (b "var profile=" ++ w ++ t ++ w' ++ b ";").

(** A band file with white space after the opening and before the closing bracket. *)
Definition loose_band (ms : list (bytes * json)) (content : bytes) : Prop :=
  exists n w t w', (N.of_nat n <= 9999)%N /\ wsp w /\ wsp w' /\ members_text n ms t /\
    content = b "ld({" ++ w ++ t ++ w' ++ b "});".

Lemma wsp_app u v : wsp u -> wsp v -> wsp (u ++ v).
Proof. intros. now apply Forall_app. Qed.

Lemma doc_absorbs v w t w' : wsp w -> wsp w' -> json_doc v t -> json_doc v (w ++ t ++ w').
Proof.
  intros Hw Hw' (n & w1 & t0 & w2 & Hn & H1 & Ht & H2 & ->).
  exists n, (w ++ w1), t0, (w2 ++ w'). repeat (split; [auto using wsp_app|]). now rewrite <- !app_assoc.
Qed.

Lemma members_before n ms w t : wsp w -> members_text n ms t -> members_text n ms (w ++ t).
Proof.
  intros Hw H. destruct H; rewrite app_assoc; constructor; auto using wsp_app.
Qed.

Lemma members_after n ms w t : wsp w -> members_text n ms t -> members_text n ms (t ++ w).
Proof.
  intros Hw. induction 1.
  - replace ((w1 ++ quote :: kt ++ quote :: w2 ++ ":"%char :: w3 ++ t ++ w4) ++ w)
      with (w1 ++ quote :: kt ++ quote :: w2 ++ ":"%char :: w3 ++ t ++ (w4 ++ w))
      by (repeat (rewrite <- !app_assoc; cbn [Datatypes.app]); reflexivity).
    constructor; auto using wsp_app.
  - replace ((w1 ++ quote :: kt ++ quote :: w2 ++ ":"%char :: w3 ++ t ++ w4 ++ ","%char :: t') ++ w)
      with (w1 ++ quote :: kt ++ quote :: w2 ++ ":"%char :: w3 ++ t ++ w4 ++ ","%char :: (t' ++ w))
      by (repeat (rewrite <- !app_assoc; cbn [Datatypes.app]); reflexivity).
    constructor; auto using wsp_app.
Qed.

Lemma loose_profile_at D L p : loose_profile D L p -> profile_at D L p.
Proof.
  intros (w & t & w' & Hw & Hw' & Ht & Hf). exists (w ++ t ++ w'). split; [now apply doc_absorbs|].
  now rewrite <- !app_assoc.
Qed.

Lemma loose_band_text ms c : loose_band ms c -> band_text ms c.
Proof.
  intros (n & w & t & w' & Hn & Hw & Hw' & Ht & ->). exists n, (w ++ t ++ w').
  split; [exact Hn|]. split; [now apply members_before, members_after|]. now rewrite <- !app_assoc.
Qed.

Theorem C34_newlines_inside_partial : forall C U tz O D path L p password ks bands items,
  crypto_ok C -> unicode_ok U -> oracles_ok O ->
  vault_dir D path L -> plain_path path -> loose_profile D L p -> profile_for C password p ks ->
  (* the band files, in the order of their names *)
  StronglySorted (fun x y => bytes_ltb x y = true) (map fst bands) ->
  (forall n, In n (map fst bands) <-> band_name n /\ fs_get (d_fs D) (in_default n L) <> None) ->
  Forall (fun nb => exists c, file_at D (in_default (fst nb) L) c /\ loose_band (snd nb) c) bands ->
  items_for C U tz ks (entries_of bands) items ->
  exists s l, run C U tz (opening O D path password) init = Ok (s, [RError None; RError None]) /\
    is_unlocked s = true /\ st_items s = Some l /\ Permutation items l.
Proof.
  intros C U tz O D path L p password ks bands items HC HU HO Hv Hp Hpr Hpf Hs Hn Hb Hi.
  assert (Hvault : vault_at C U tz D path password ks items).
  { constructor. exists L, p, bands. split; [exact Hv|]. split; [exact Hp|].
    split; [now apply loose_profile_at|]. split; [exact Hpf|]. split; [|exact Hi].
    constructor; [exact Hs|exact Hn|]. eapply Forall_impl; [|exact Hb].
    intros nb (c & Hc & Ht). exists c. split; [exact Hc|now apply loose_band_text]. }
  destruct (open_vault C HC U HU tz O D path password ks items init HO Hvault) as (p' & l' & H1 & H2 & Hperm);
    try reflexivity.
  eexists _, l'. split; [apply opening_run; eauto|]. split; [reflexivity|]. split; [reflexivity|].
  now apply Permutation_sym.
Qed.
Print Assumptions C34_newlines_inside_partial.

(** The vault of the examples with line breaks around both documents. *)
Definition broken_profile : bytes :=
  b "var profile=" ++ newline ++ print_json (JObj (write_profile toy_crypto (b "freddy") demo_secrets)) ++
  newline ++ b ";".
Definition broken_band : bytes :=
  b "ld({" ++ newline ++ print_members (write_members toy_crypto demo_keys [demo_login]) ++ newline ++ b "});".

Lemma newline_wsp : wsp newline.
Proof. constructor; [cbn [In]; auto|constructor]. Qed.

Example C34_newlines_inside_example :
  let D := put_disk (b "v") broken_profile [(b "band_0.js", broken_band)] in
  let bands := [(b "band_0.js", write_members toy_crypto demo_keys [demo_login])] in
  vault_dir D (b "/v") [b "v"] /\ plain_path (b "/v") /\
  loose_profile D [b "v"] (write_profile toy_crypto (b "freddy") demo_secrets) /\
  profile_for toy_crypto (b "freddy") (write_profile toy_crypto (b "freddy") demo_secrets) demo_keys /\
  StronglySorted (fun x y => bytes_ltb x y = true) (map fst bands) /\
  (forall n, In n (map fst bands) <-> band_name n /\ fs_get (d_fs D) (in_default n [b "v"]) <> None) /\
  Forall (fun nb => exists c, file_at D (in_default (fst nb) [b "v"]) c /\ loose_band (snd nb) c) bands /\
  items_for toy_crypto latin1 utc demo_keys (entries_of bands) [hd (MkItem (Cat [] []) 0 [] [] false [] [] [] 0) demo_items].
Proof.
  cbn zeta.
  assert (Hst : storable demo_login) by (assert (H := demo_storable); inversion H; subst; auto).
  split; [apply (put_disk_dir (b "v") demo_dir_plain)|].
  split; [constructor; [|constructor; [|constructor]]; vm_compute; intuition discriminate|].
  split; [|split; [|split; [|split; [|split]]]].
  - exists newline, (print_json (JObj (write_profile toy_crypto (b "freddy") demo_secrets))), newline.
    repeat (split; [exact newline_wsp|]).
    split; [apply (write_profile_at toy_crypto), demo_secrets_ok|]. apply put_disk_profile.
  - apply write_profile_for; [exact toy_crypto_ok|exact demo_secrets_ok].
  - repeat constructor.
  - intros n. apply (put_disk_names (b "v") _ [(b "band_0.js", broken_band)]); [repeat constructor|].
    constructor; [apply (demo_name (b "0")); vm_compute; intuition discriminate|constructor].
  - constructor; [|constructor]. exists broken_band. split.
    + apply put_disk_file; [repeat constructor|apply (demo_name (b "0")); vm_compute; intuition discriminate|now left].
    + exists 1, newline, (print_members (write_members toy_crypto demo_keys [demo_login])), newline.
      split; [vm_compute; discriminate|]. repeat (split; [exact newline_wsp|]). split; [|reflexivity].
      apply print_members_text; [apply print_json_text| |discriminate].
      apply write_members_printable. auto.
  - unfold entries_of. cbn [map snd concat]. rewrite app_nil_r.
    rewrite obj_of_nodup by (apply nodupb_ok; reflexivity).
    cbn [write_members map]. apply if_item; [|constructor].
    apply (write_entry_for toy_crypto latin1 utc); [exact Hst|].
    assert (H := demo_shown). cbn [concat map snd demo_bands app] in H. inversion H; subst. auto.
Qed.
