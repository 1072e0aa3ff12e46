(** C87: the algorithms themselves.  Everywhere else the cryptographic primitives
    are a record with laws ([crypto_ok]); here the record is AES, HMAC-SHA-256,
    SHA-512, PBKDF2-HMAC-SHA-512 and MD5 as their standards define them
    (RealCrypto.v), and no law is assumed. *)
From Verif Require Import Base Utf8 GoStrings GoStringsProof Base64 Spec_Base64 Float64 Json Crypto
  Spec_Crypto KeyService CryptoProof RealCrypto RealCryptoProof Path Fs Domain Spec_Domain Repos Session Spec_Item Spec_Vault
  Spec_Writer WriterProof Toy OpenProof Properties_Crypto Properties_Vault.

Theorem C87_algorithms_meet_laws :
  (forall key block, length block = 16 ->
     length (aes_encrypt key block) = 16 /\ length (aes_decrypt key block) = 16 /\
     aes_decrypt key (aes_encrypt key block) = block) /\
  (forall key msg, length (hmac_sha256 key msg) = 32) /\
  (forall msg, length (sha sha512_params msg) = 64 /\ length (md5_sum msg) = 16) /\
  (forall password salt iterations, length (pbkdf2_sha512 password salt iterations) = 64).
Proof.
  split; [|split; [|split]].
  - intros k x H. split; [now apply aes_encrypt_length|]. split; [now apply aes_decrypt_length|].
    now apply aes_decrypt_encrypt.
  - exact (hmac_len _ real_crypto_ok).
  - intros m. split; [apply sha512_length|apply md5_sum_length].
  - exact pbkdf2_sha512_length.
Qed.
Print Assumptions C87_algorithms_meet_laws.

(** What was encrypted with AES-CBC and HMAC-SHA-256 is decoded. *)
Theorem C87_opdata_round_trip : forall key mac iv pad plain,
  length key = 32 -> opdata_params iv pad plain ->
  exists buf, decode_opdata real_crypto (opdata real_crypto key mac iv pad plain) key mac = Ok (Val plain, buf).
Proof.
  intros key mac iv pad plain Hk Hp. apply (C06_opdata_round_trip _ real_crypto_ok); [|exact Hp].
  unfold aes_key_ok. rewrite Hk. reflexivity.
Qed.
Print Assumptions C87_opdata_round_trip.

(** A vault written with these algorithms opens with its password and shows
    exactly the items it was written with. *)
Theorem C87_standard_vault_opens : forall U tz O password w bands items,
  unicode_ok U -> oracles_ok O -> secrets_ok w -> bands_ok bands ->
  Forall2 (shown_as U tz) (concat (map snd bands)) items ->
  let D := write_disk real_crypto (b "v") password w bands in
  exists s, run real_crypto U tz (opening O D (b "/v") password) init = Ok (s, [RError None; RError None]) /\
    is_unlocked s = true /\
    (forall i, In i items -> get_item (it_uid i) (it_trashed i) s = Some i) /\
    (forall uid trashed i, get_item uid trashed s = Some i ->
       In i items /\ it_uid i = uid /\ it_trashed i = trashed) /\
    count_items None false s + count_items None true s = length items.
Proof.
  intros U tz O password w bands items HU HO Hw Hb Hs D.
  assert (Hv : vault_at real_crypto U tz D (b "/v") password (keys_of real_crypto password w) items).
  { apply (written_vault real_crypto real_crypto_ok U tz (b "v") demo_dir_plain); auto.
    repeat (constructor; [vm_compute; intuition discriminate|]). constructor. }
  destruct (C16_items_decoded _ U real_crypto_ok HU tz O D _ _ _ _ HO Hv) as (s & R & H).
  destruct (C10_right_password_opens _ U real_crypto_ok HU tz O D _ _ _ _ HO Hv) as (s' & R' & Hu & _).
  rewrite R in R'. injection R' as <-.
  exists s. auto.
Qed.
Print Assumptions C87_standard_vault_opens.

Example C87_example :
  unicode_ok latin1 /\ oracles_ok backwards /\ secrets_ok demo_secrets /\ bands_ok demo_bands /\
  Forall2 (shown_as latin1 utc) (concat (map snd demo_bands)) demo_items /\ length demo_items = 3.
Proof.
  split; [exact latin1_ok|]. split; [exact backwards_ok|]. split; [exact demo_secrets_ok|].
  split; [exact demo_bands_ok|]. split; [exact demo_shown|reflexivity].
Qed.

(** Published test vectors, to show that these are the algorithms meant. *)
Fixpoint unhex (s : bytes) : bytes :=
  let digit c := if (vb c <? 58)%N then (vb c - 48)%N else (vb c - 87)%N in
  match s with
  | x :: y :: s' => bv (16 * digit x + digit y) :: unhex s'
  | _ => []
  end.

(** FIPS 180-4 and RFC 1321: "abc". *)
Example C87_sha256_vector :
  sha sha256_params (b "abc") =
  unhex (b "ba7816bf8f01cfea414140de5dae2223b00361a396177a9cb410ff61f20015ad").
Proof. vm_compute. reflexivity. Qed.

Example C87_sha512_vector :
  sha sha512_params (b "abc") =
  unhex (b "ddaf35a193617abacc417349ae20413112e6fa4e89a97ea20a9eeee64b55d39a2192992a274fc1a836ba3c23a3feebbd454d4423643ce80e2a9ac94fa54ca49f").
Proof. vm_compute. reflexivity. Qed.

Example C87_md5_vector : md5_sum (b "abc") = unhex (b "900150983cd24fb0d6963f7d28e17f72").
Proof. vm_compute. reflexivity. Qed.

(** RFC 4231, case 2. *)
Example C87_hmac_vector :
  hmac_sha256 (b "Jefe") (b "what do ya want for nothing?") =
  unhex (b "5bdcc146bf60754e6a042426089575c75a003f089d2739839dec58b964ec3843").
Proof. vm_compute. reflexivity. Qed.

(** FIPS 197, C.1 and C.3. *)
Example C87_aes_vectors :
  let plain := unhex (b "00112233445566778899aabbccddeeff") in
  aes_encrypt (unhex (b "000102030405060708090a0b0c0d0e0f")) plain
    = unhex (b "69c4e0d86a7b0430d8cdb78070b4c55a") /\
  aes_encrypt (unhex (b "000102030405060708090a0b0c0d0e0f101112131415161718191a1b1c1d1e1f")) plain
    = unhex (b "8ea2b7ca516745bfeafc49904b496089").
Proof. vm_compute. split; reflexivity. Qed.

(** PBKDF2-HMAC-SHA-512, "password", "salt", two iterations. *)
Example C87_pbkdf2_vector :
  pbkdf2_sha512 (b "password") (b "salt") 2 =
  unhex (b "e1d9c16aa681708a45f5c7c4e215ceb66e011a2e9f0040713f18aefdb866d53cf76cab2868a39b9f7840edce4fef5a82be67335c77a6068e04112754f27ccf4e").
Proof. vm_compute. reflexivity. Qed.

(** ** C88, refuted: other passwords open the vault too.  HMAC fills a short key
    with zero bytes and replaces a long one by its digest, so PBKDF2 cannot tell
    such passwords apart. *)
Lemma hmac_zero key msg : length key < 128 ->
  hmac_sha512 (key ++ ["000"%char]) msg = hmac_sha512 key msg.
Proof.
  intros H. unfold hmac_sha512, hmac. rewrite app_length. cbn [length].
  destruct (Nat.leb_spec (length key + 1) 128); [|lia].
  destruct (Nat.leb_spec (length key) 128); [|lia].
  rewrite app_length. cbn [length].
  replace (128 - length key) with (S (128 - (length key + 1))) by lia.
  cbn [repeat]. rewrite <- app_assoc. reflexivity.
Qed.

Lemma hmac_digest key msg : 128 < length key ->
  hmac_sha512 (sha sha512_params key) msg = hmac_sha512 key msg.
Proof.
  intros H. unfold hmac_sha512, hmac. rewrite sha512_length.
  destruct (Nat.leb_spec (length key) 128); [lia|]. change (64 <=? 128) with true. cbv iota.
  rewrite sha512_length. reflexivity.
Qed.

Lemma iter_ext {A} n (f g : A -> A) x : (forall y, f y = g y) -> N.iter n f x = N.iter n g x.
Proof.
  intros H. induction n as [|n IH] using N.peano_ind; [reflexivity|].
  rewrite !N.iter_succ, IH. apply H.
Qed.

Lemma pbkdf2_same p q salt iter : (forall msg, hmac_sha512 p msg = hmac_sha512 q msg) ->
  pbkdf2_sha512 p salt iter = pbkdf2_sha512 q salt iter.
Proof.
  intros H. unfold pbkdf2_sha512. rewrite H. f_equal. apply iter_ext. intros [u t]. cbn [fst snd].
  rewrite H. reflexivity.
Qed.

Lemma unlock_same U tz O D path p q s :
  (forall msg, hmac_sha512 p msg = hmac_sha512 q msg) ->
  unlock real_crypto U tz O D path p s = unlock real_crypto U tz O D path q s.
Proof.
  intros H. unfold unlock, unlock_keys, derived_keys.
  destruct (get_iterations (st_profile s)); [cbn [rbind]|reflexivity|reflexivity].
  destruct (get_salt (st_profile s)); [cbn [rbind]|reflexivity|reflexivity].
  destruct (b64_decode a0) as [salt [|]]; [|reflexivity].
  cbn [pbkdf2 real_crypto]. rewrite (pbkdf2_same p q salt a H). reflexivity.
Qed.

Theorem C88_zero_byte_refuted : forall U tz O D path password s,
  length password < 128 ->
  unlock real_crypto U tz O D path (password ++ ["000"%char]) s
  = unlock real_crypto U tz O D path password s /\ password ++ ["000"%char] <> password.
Proof.
  intros. split; [apply unlock_same; intros; now apply hmac_zero|].
  intros E. apply (f_equal (@length ascii)) in E. rewrite app_length in E. cbn in E. lia.
Qed.
Print Assumptions C88_zero_byte_refuted.

Theorem C88_digest_refuted : forall U tz O D path password s,
  128 < length password ->
  unlock real_crypto U tz O D path (sha sha512_params password) s
  = unlock real_crypto U tz O D path password s /\ sha sha512_params password <> password.
Proof.
  intros. split; [apply unlock_same; intros; now apply hmac_digest|].
  intros E. apply (f_equal (@length ascii)) in E. rewrite sha512_length in E. lia.
Qed.
Print Assumptions C88_digest_refuted.

(** So the vault of the example opens with two passwords. *)
Example C88_example :
  let D := write_disk real_crypto (b "v") (b "freddy") demo_secrets demo_bands in
  exists s, run real_crypto latin1 utc (opening backwards D (b "/v") (b "freddy" ++ ["000"%char])) init
            = Ok (s, [RError None; RError None]) /\ is_unlocked s = true.
Proof.
  cbn zeta. set (D := write_disk _ _ _ _ _).
  destruct C87_example as (H1 & H2 & H3 & H4 & H5 & _).
  destruct (C87_standard_vault_opens latin1 utc backwards (b "freddy") demo_secrets demo_bands demo_items H1 H2 H3 H4 H5)
    as (s & R & Hu & _). fold D in R.
  exists s. split; [|exact Hu]. apply opening_run in R. destruct R as (s1 & V & L).
  apply opening_run. exists s1. split; [exact V|].
  rewrite (proj1 (C88_zero_byte_refuted latin1 utc backwards D (b "/v") (b "freddy") s1
    ltac:(apply Nat.ltb_lt; reflexivity))). exact L.
Qed.
