(** The writer of Spec_Writer.v writes vaults in the sense of Spec_Vault.v. *)
From Verif Require Import Base Utf8 GoStrings GoStringsProof Spec_Base64 Base64Proof Float64 Float64Proof
  Json Spec_Json JsonProof JsonPrint Crypto Spec_Crypto CryptoProof Path Fs FsProof Domain DomainProof
  Spec_Domain Spec_Item ItemProof Repos Spec_Vault Spec_Writer VaultProof.

Lemma b64_char_ascii n : (vb (b64_char n) <? 128)%N = true.
Proof.
  unfold b64_char.
  assert (H : forallb (fun c => vb c <? 128)%N ("A"%char :: b64_alphabet) = true) by reflexivity.
  rewrite forallb_forall in H. apply H.
  destruct (nth_in_or_default (N.to_nat n) b64_alphabet "A"%char) as [Hi| ->]; simpl; auto.
Qed.

Lemma b64_encode_ascii s : is_ascii (b64_encode s) = true.
Proof.
  remember (length s) as n eqn:Hn. assert (Hle : length s <= n) by lia. clear Hn.
  revert s Hle. unfold is_ascii. induction n as [|n IH]; intros s Hle.
  - destruct s; [reflexivity|simpl in Hle; lia].
  - destruct s as [|x [|y [|z s]]]; cbn [b64_encode forallb]; rewrite ?b64_char_ascii; try reflexivity.
    cbn [andb]. apply IH. simpl in Hle. lia.
Qed.

Lemma b64_encode_utf8 s : valid_utf8 (b64_encode s).
Proof. apply ascii_valid_utf8, b64_encode_ascii. Qed.

Lemma wrapped_refl s : wrapped s s.
Proof. induction s; constructor; auto. Qed.

Lemma pad_for_ok plain :
  (N.of_nat (length plain) < 9223372036854775808)%N -> opdata_params zero_iv (pad_for plain) plain.
Proof.
  intros H. split; [reflexivity|]. split; [|exact H].
  unfold pad_for. rewrite app_length, repeat_length.
  pose proof (Nat.mod_upper_bound (length plain) 16). pose proof (Nat.div_mod (length plain) 16).
  replace (16 - length plain mod 16 + length plain) with ((length plain / 16 + 1) * 16) by lia.
  apply Nat.mod_mul. lia.
Qed.

Lemma write_opdata_ok C key mac plain :
  (N.of_nat (length plain) < 9223372036854775808)%N ->
  opdata_text C key mac plain (write_opdata C key mac plain).
Proof.
  intros H. exists zero_iv, (pad_for plain). split; [now apply pad_for_ok|apply wrapped_refl].
Qed.

Lemma published_utf8 code : In code (map fst published) -> valid_utf8 code.
Proof.
  intros H. apply ascii_valid_utf8.
  assert (G : forallb is_ascii (map fst published) = true) by reflexivity.
  rewrite forallb_forall in G. auto.
Qed.

Section Writer.
Variable C : crypto.
Hypothesis HC : crypto_ok C.
Variable U : unicode.
Variable tz : Z -> Z.

Lemma write_profile_for password w :
  secrets_ok w -> profile_for C password (write_profile C password w) (keys_of C password w).
Proof.
  intros [H1 H2 H3]. constructor.
  - exists (w_salt w), (b64_encode (w_salt w)), (w_iterations w).
    split; [reflexivity|]. split; [apply wrapped_refl|]. split; [reflexivity|]. split; [exact H1|].
    cbn [keys_of k_derived k_derived_mac]. split; [apply firstn_skipn|].
    rewrite firstn_length, (pbkdf2_len C HC). reflexivity.
  - exists (w_master w), (write_opdata C (k_derived (keys_of C password w))
      (k_derived_mac (keys_of C password w)) (w_master w)).
    split; [reflexivity|]. split; [now apply write_opdata_ok|].
    cbn [keys_of k_master k_master_mac]. split; [apply firstn_skipn|].
    rewrite firstn_length, (sha512_len C HC). reflexivity.
  - exists (w_over w), (write_opdata C (k_derived (keys_of C password w))
      (k_derived_mac (keys_of C password w)) (w_over w)).
    split; [reflexivity|]. split; [now apply write_opdata_ok|].
    cbn [keys_of k_overview k_overview_mac]. split; [apply firstn_skipn|].
    rewrite firstn_length, (sha512_len C HC). reflexivity.
Qed.

Lemma write_entry_for ks s i :
  storable s -> shown_as U tz s i -> entry_for C U tz ks (w_uid s) (write_entry C ks s) i.
Proof.
  intros [Hu Hc Hcr Hup [Hk Hm] (n & Hn & Ho & Hd) [So Sd]] [E1 [E2 E2'] [E3 E4] E5 E6 E7 E8 E9].
  constructor; [exact E1|rewrite E2; exact E2'|].
  unfold write_entry. cbn zeta.
  eexists. exists (w_key s), (w_mac s), (w_overview s), (w_details s).
  split; [reflexivity|]. split; [exact Hk|]. split; [exact Hm|].
  split; [rewrite E2; reflexivity|]. rewrite E3, E4, E5.
  split; [reflexivity|]. split; [exact Hcr|]. split; [reflexivity|]. split; [exact Hup|].
  split; [right; reflexivity|]. split; [eexists; reflexivity|].
  split.
  { eexists. exists zero_iv. split; [reflexivity|]. split; [reflexivity|]. apply wrapped_refl. }
  split.
  { eexists. split; [reflexivity|]. exists (print_json (JObj (w_overview s))).
    split; [now apply (print_json_doc n)|]. now apply write_opdata_ok. }
  split.
  { eexists. split; [reflexivity|]. exists (print_json (JObj (w_details s))).
    split; [now apply (print_json_doc n)|]. now apply write_opdata_ok. }
  auto.
Qed.

Lemma write_members_printable ks l :
  Forall storable l ->
  Forall (fun kv => valid_utf8 (fst kv) /\ printable 1 (snd kv)) (write_members C ks l).
Proof.
  intros H. unfold write_members. apply Forall_map. eapply Forall_impl; [|exact H].
  intros s [Hu Hc Hcr Hup _ _ _]. cbn [fst snd]. split; [exact Hu|].
  unfold write_entry. apply pr_obj; [apply nodupb_ok; reflexivity|].
  repeat (apply Forall_cons; [cbn [fst snd]; split; [apply ascii_valid_utf8; reflexivity|]|]).
  9: constructor.
  1: constructor; now apply published_utf8.
  1,7: constructor; assumption.
  5: constructor.
  all: constructor; apply b64_encode_utf8.
Qed.

Lemma write_band_text ks l :
  Forall storable l -> l <> [] -> band_text (write_members C ks l) (write_band C ks l).
Proof.
  intros H Hne. exists 1, (print_members (write_members C ks l)).
  split; [vm_compute; discriminate|]. split; [|reflexivity].
  apply print_members_text; [apply print_json_text|now apply write_members_printable|].
  destruct l; [congruence|discriminate].
Qed.

Lemma write_profile_at password w :
  secrets_ok w -> json_doc (JObj (write_profile C password w)) (print_json (JObj (write_profile C password w))).
Proof.
  intros [H1 _ _]. apply (print_json_doc 1); [vm_compute; discriminate|].
  apply pr_obj; [apply nodupb_ok; reflexivity|].
  repeat (apply Forall_cons; [cbn [fst snd]; split; [apply ascii_valid_utf8; reflexivity|]|]).
  5: constructor.
  2: constructor; exact H1.
  all: constructor; apply b64_encode_utf8.
Qed.

Lemma fs_get_app_none f g l : l <> [] -> ~ In l (map fst f) -> fs_get (f ++ g) l = fs_get g l.
Proof.
  intros Hl H. destruct l as [|n l]; [congruence|]. unfold fs_get. f_equal.
  induction f as [|[k v] f IH]; [reflexivity|]. cbn [app find fst].
  destruct (loc_eqb k (n :: l)) eqn:E.
  - apply loc_eqb_eq in E. exfalso. apply H. left. exact E.
  - apply IH. intros Hin. apply H. now right.
Qed.

Lemma fs_get_map {A} (g : A -> node) (f : bytes -> loc) (l : list (bytes * A)) n :
  (forall x, f x <> []) -> (forall x y, f x = f y -> x = y) ->
  fs_get (map (fun nb => (f (fst nb), g (snd nb))) l) (f n) =
  option_map (fun nb => g (snd nb)) (find (fun nb => bytes_eqb (fst nb) n) l).
Proof.
  intros Hf Hi. unfold fs_get. destruct (f n) as [|c p] eqn:E; [now apply Hf in E|].
  rewrite <- E. clear E. induction l as [|[k a] l IH]; [reflexivity|].
  cbn [map find fst snd]. destruct (loc_eqb (f k) (f n)) eqn:E1.
  - apply loc_eqb_eq, Hi in E1. subst k. rewrite bytes_eqb_refl. reflexivity.
  - destruct (bytes_eqb k n) eqn:E2; [|exact IH].
    apply bytes_eqb_eq in E2. subst k. rewrite loc_eqb_refl in E1. discriminate.
Qed.

Lemma find_name {A} (l : list (bytes * A)) n x :
  StronglySorted (fun x y => bytes_ltb x y = true) (map fst l) -> In (n, x) l ->
  find (fun nb => bytes_eqb (fst nb) n) l = Some (n, x).
Proof.
  induction l as [|[k a] l IH]; intros Hs Hin; [destruct Hin|].
  cbn [find fst]. inversion Hs as [|? ? Hs' Hk]; subst. destruct Hin as [[= -> ->]|Hin].
  - now rewrite bytes_eqb_refl.
  - destruct (bytes_eqb k n) eqn:E; [|now apply IH].
    apply bytes_eqb_eq in E. subst k. rewrite Forall_forall in Hk.
    assert (Hx : bytes_ltb n n = true) by (apply Hk, in_map_iff; exists (n, x); auto).
    now rewrite bytes_ltb_irrefl in Hx.
Qed.

Variable dir : bytes.
Hypothesis Hdir : plain_name dir.

Definition at_default (n : bytes) : loc := n :: b "default" :: [dir].

Lemma band_name_not_profile n : band_name n -> n <> b "profile.js".
Proof. intros (x & -> & _). discriminate. Qed.

Lemma put_disk_get profile files n :
  band_name n ->
  fs_get (d_fs (put_disk dir profile files)) (at_default n) =
  option_map (fun nf => NFile (snd nf) 420%N) (find (fun nf => bytes_eqb (fst nf) n) files).
Proof.
  intros Hn. unfold put_disk. cbn zeta. cbn [d_fs]. rewrite fs_get_app_none.
  - apply (fs_get_map (fun l => NFile l 420%N) at_default).
    + discriminate.
    + unfold at_default. congruence.
  - discriminate.
  - apply band_name_not_profile in Hn. unfold at_default.
    intros [E|[E|[E|[]]]]; try discriminate E.
    apply Hn. exact (eq_sym (f_equal (@hd bytes []) E)).
Qed.

Lemma fs_get_hd k n f : k <> [] -> fs_get ((k, n) :: f) k = Some n.
Proof.
  intros H. destruct k as [|c k]; [congruence|]. unfold fs_get. cbn [find fst]. now rewrite loc_eqb_refl.
Qed.

Lemma fs_get_tl k k' n f : k <> [] -> k' <> k -> fs_get ((k', n) :: f) k = fs_get f k.
Proof.
  intros H Hn. destruct k as [|c k]; [congruence|]. unfold fs_get. cbn [find fst].
  destruct (loc_eqb k' (c :: k)) eqn:E; [|reflexivity]. apply loc_eqb_eq in E. congruence.
Qed.

Lemma put_disk_resolve profile files :
  resolve (put_disk dir profile files) (slash :: dir) = Some [dir].
Proof.
  unfold resolve. cbn [rooted]. change (is_slash slash) with true. cbn iota.
  cbn [split_slash]. change (is_slash slash) with true. cbn iota.
  rewrite split_slash_plain by apply Hdir. cbn [walk].
  change (is_dir (d_fs (put_disk dir profile files)) []) with true. cbn [negb].
  change (bytes_eqb [] [] || bytes_eqb [] dot) with true. cbn iota.
  change (is_dir (d_fs (put_disk dir profile files)) []) with true. cbn [negb].
  destruct Hdir as [[H1 [H2 H3]] _].
  apply bytes_eqb_neq in H1, H2, H3. rewrite H1, H2, H3. cbn [orb].
  unfold put_disk. cbn zeta. cbn [d_fs app]. rewrite fs_get_hd by discriminate. reflexivity.
Qed.

Lemma put_disk_dir profile files : vault_dir (put_disk dir profile files) (slash :: dir) [dir].
Proof.
  constructor.
  - apply put_disk_resolve.
  - unfold put_disk. cbn zeta. cbn [d_fs app]. now rewrite fs_get_hd by discriminate.
  - unfold put_disk. cbn zeta. cbn [d_fs app].
    rewrite fs_get_tl by discriminate. now rewrite fs_get_hd by discriminate.
  - reflexivity.
Qed.

Lemma put_disk_profile profile files :
  file_at (put_disk dir profile files) (in_default (b "profile.js") [dir]) profile.
Proof.
  split; [|reflexivity]. exists 420%N. unfold put_disk. cbn zeta. cbn [d_fs app].
  unfold in_default. rewrite fs_get_tl by discriminate. rewrite fs_get_tl by discriminate.
  now rewrite fs_get_hd by discriminate.
Qed.

Lemma put_disk_file profile files n c :
  StronglySorted (fun x y => bytes_ltb x y = true) (map fst files) ->
  band_name n -> In (n, c) files ->
  file_at (put_disk dir profile files) (in_default n [dir]) c.
Proof.
  intros Ho Hn Hin. split; [|reflexivity]. exists 420%N. unfold in_default. fold (at_default n).
  rewrite put_disk_get by exact Hn. now rewrite (find_name files n c Ho Hin).
Qed.

Lemma put_disk_names profile files n :
  StronglySorted (fun x y => bytes_ltb x y = true) (map fst files) ->
  Forall band_name (map fst files) ->
  (In n (map fst files) <->
   band_name n /\ fs_get (d_fs (put_disk dir profile files)) (in_default n [dir]) <> None).
Proof.
  intros Ho Hn. unfold in_default. fold (at_default n). split.
  - intros Hin. apply in_map_iff in Hin. destruct Hin as ((n', l) & E & Hin). cbn [fst] in E. subst n'.
    rewrite Forall_forall in Hn. assert (Hb : band_name n).
    { apply Hn, in_map_iff. exists (n, l). auto. }
    split; [exact Hb|]. rewrite put_disk_get by exact Hb.
    rewrite (find_name files n l Ho Hin). discriminate.
  - intros [Hb Hg]. rewrite put_disk_get in Hg by exact Hb.
    destruct (find (fun nb => bytes_eqb (fst nb) n) files) as [[n' l]|] eqn:E; [|now elim Hg].
    apply find_some in E. destruct E as [E1 E2]. apply bytes_eqb_eq in E2. cbn [fst] in E2. subst n'.
    apply in_map_iff. exists (n, l). auto.
Qed.

(** Any band files. *)
Lemma put_disk_bands profile (bands : list (bytes * list (bytes * json))) (text : list (bytes * json) -> bytes) :
  StronglySorted (fun x y => bytes_ltb x y = true) (map fst bands) ->
  Forall (fun nb => band_name (fst nb) /\ band_text (snd nb) (text (snd nb))) bands ->
  bands_at (put_disk dir profile (map (fun nb => (fst nb, text (snd nb))) bands)) [dir] bands.
Proof.
  intros Ho Hn.
  assert (E : map fst (map (fun nb => (fst nb, text (snd nb))) bands) = map fst bands).
  { rewrite map_map. reflexivity. }
  constructor.
  - exact Ho.
  - intros n. rewrite <- E. apply put_disk_names; rewrite E; [exact Ho|].
    apply Forall_map. eapply Forall_impl; [|exact Hn]. intros nb [H _]. exact H.
  - apply Forall_forall. intros [n ms] Hin. rewrite Forall_forall in Hn.
    destruct (Hn _ Hin) as [Hb Ht]. cbn [fst snd] in *. exists (text ms). split; [|exact Ht].
    apply put_disk_file; [rewrite E; exact Ho|exact Hb|].
    apply in_map_iff. exists (n, ms). auto.
Qed.

Theorem written_layout password w bands :
  secrets_ok w -> bands_ok bands ->
  let D := write_disk C dir password w bands in
  let ks := keys_of C password w in
  let written := map (fun nb => (fst nb, write_members C ks (snd nb))) bands in
  vault_dir D (slash :: dir) [dir] /\
  profile_at D [dir] (write_profile C password w) /\
  bands_at D [dir] written /\
  entries_of written = write_members C ks (concat (map snd bands)).
Proof.
  intros Hw [Ho Hn Hu Hs] D ks written.
  split; [|split; [|split]].
  - apply put_disk_dir.
  - exists (print_json (JObj (write_profile C password w))). split; [now apply write_profile_at|].
    apply put_disk_profile.
  - assert (Ed : D = put_disk dir (profile_text (write_profile C password w))
        (map (fun nb => (fst nb, b "ld({" ++ print_members (snd nb) ++ b "});")) written)).
    { unfold D, write_disk, written. rewrite map_map. reflexivity. }
    rewrite Ed. apply (put_disk_bands _ written (fun ms => b "ld({" ++ print_members ms ++ b "});")).
    + unfold written. rewrite map_map. exact Ho.
    + unfold written. apply Forall_map, Forall_forall. intros [n l] Hin. cbn [fst snd].
      rewrite Forall_forall in Hn. destruct (Hn _ Hin) as [Hb Hne]. cbn [fst snd] in Hb, Hne.
      split; [exact Hb|]. apply write_band_text; [|exact Hne]. apply Forall_forall. intros s Hx.
      rewrite Forall_forall in Hs. apply Hs, in_concat. exists l. split; [|exact Hx].
      apply in_map_iff. exists (n, l). auto.
  - unfold entries_of.
    assert (Hbands : concat (map snd written) = write_members C ks (concat (map snd bands))).
    { unfold written. rewrite map_map. cbn [snd]. unfold write_members. rewrite concat_map, map_map. reflexivity. }
    rewrite Hbands. apply obj_of_nodup. unfold write_members. rewrite map_map. exact Hu.
Qed.

Theorem written_vault password w bands items :
  plain_path dir -> secrets_ok w -> bands_ok bands ->
  Forall2 (shown_as U tz) (concat (map snd bands)) items ->
  vault_at C U tz (write_disk C dir password w bands) (slash :: dir) password (keys_of C password w) items.
Proof.
  intros Hp Hw Hb Hi. destruct (written_layout password w bands Hw Hb) as (H1 & H2 & H3 & H4).
  constructor. exists [dir], (write_profile C password w),
    (map (fun nb => (fst nb, write_members C (keys_of C password w) (snd nb))) bands).
  split; [exact H1|]. split.
  { constructor; [vm_compute; intuition discriminate|exact Hp]. }
  split; [exact H2|]. split; [now apply write_profile_for|]. split; [exact H3|].
  rewrite H4. destruct Hb as [_ _ _ Hs]. clear H1 H2 H3 H4.
  induction Hi as [|s i ws items Hx Hi IH]; [constructor|].
  inversion Hs; subst. cbn [write_members map]. apply if_item; [now apply write_entry_for|].
  now apply IH.
Qed.

End Writer.
