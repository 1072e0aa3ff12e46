(** Properties of the key service (C06-C09, C13, C14).  The writer's side of the
    format is in Spec_Crypto.v; [crypto_ok] (Crypto.v) lists what is assumed of
    AES, HMAC, SHA-512 and PBKDF2: sizes, and that decryption inverts
    encryption. *)
From Verif Require Import Base Utf8 GoStrings Base64 Spec_Base64 Base64Proof Float64 Float64Proof Json Crypto
  Spec_Crypto Domain KeyService CryptoProof.

(** ** C06: what was written is decoded, whatever the plaintext, IV and padding. *)
Theorem C06_opdata_round_trip : forall C, crypto_ok C -> forall key mac iv pad plain,
  aes_key_ok key = true -> opdata_params iv pad plain ->
  exists buf, decode_opdata C (opdata C key mac iv pad plain) key mac = Ok (Val plain, buf).
Proof. intros. eexists. now apply opdata_roundtrip. Qed.
Print Assumptions C06_opdata_round_trip.

Example C06_example :
  crypto_ok toy_crypto /\ aes_key_ok (repeat "k"%char 32) = true /\
  opdata_params (repeat "i"%char 16) (repeat "p"%char 11) (b "hello").
Proof. split; [exact toy_crypto_ok|]. repeat split. Qed.

(** ** C07: plaintext only behind a matching MAC; otherwise the error, and the
    caller's buffer is untouched. *)
Theorem C07_authenticate_first : forall C cipher key mac,
  (forall plain buf, decode_opdata C cipher key mac = Ok (Val plain, buf) ->
     exists data, cipher = data ++ hmac256 C mac data) /\
  (forall body tag, cipher = body ++ tag -> length tag = 32 -> hmac256 C mac body <> tag ->
     decode_opdata C cipher key mac = Ok (Err ErrInvalidHmac, cipher)).
Proof.
  intros C cipher key mac. split.
  - intros plain buf H. apply decode_opdata_auth in H. destruct H as [Hl [H|[H _]]]; [|discriminate].
    exists (firstn (length cipher - 32) cipher). rewrite H. now rewrite firstn_skipn.
  - intros body tag -> Ht Hm. apply decode_opdata_refuse.
    + rewrite app_length. lia.
    + rewrite app_length, Ht. replace (length body + 32 - 32) with (length body) by lia.
      rewrite firstn_app_exact, skipn_app_exact by reflexivity. exact Hm.
Qed.
Print Assumptions C07_authenticate_first.

(** The complete list of blobs that decode to a plaintext, and its position. *)
Theorem C07_accepted_blobs : forall C, crypto_ok C -> forall cipher key mac plain,
  (exists buf, decode_opdata C cipher key mac = Ok (Val plain, buf)) <->
  exists pre size iv data pad,
    cipher = (pre ++ size ++ iv ++ data) ++ hmac256 C mac (pre ++ size ++ iv ++ data) /\
    length pre = 8 /\ length size = 8 /\ length iv = 16 /\ length data mod 16 = 0 /\
    aes_key_ok key = true /\
    cbc_dec C key iv data = pad ++ plain /\
    le_int64 size = Z.of_nat (length plain).
Proof. exact (fun C HC cipher key mac plain => decode_opdata_ok_iff C HC cipher key mac plain). Qed.
Print Assumptions C07_accepted_blobs.

Example C07_example :
  decode_opdata toy_crypto (b "opdata01" ++ repeat "x"%char 60) (repeat "k"%char 32) (repeat "m"%char 32)
  = Ok (Err ErrInvalidHmac, b "opdata01" ++ repeat "x"%char 60).
Proof. vm_compute. reflexivity. Qed.

(** ** C08: false.  Every blob shorter than a MAC crashes the program, and so
    does every authentic blob that is not well formed; nothing else does. *)
Theorem C08_no_crash_refuted : forall C key mac cipher,
  length cipher < 32 -> decode_opdata C cipher key mac = Panic.
Proof. exact (fun C key mac cipher H => decode_opdata_short C cipher key mac H). Qed.
Print Assumptions C08_no_crash_refuted.

Theorem C08_crash_exactly_partial : forall C, crypto_ok C -> forall cipher key mac,
  decode_opdata C cipher key mac = Panic <->
  length cipher < 32 \/
  (hmac256 C mac (firstn (length cipher - 32) cipher) = skipn (length cipher - 32) cipher /\
   (length cipher < 64 \/
    (aes_key_ok key = true /\
     ((length cipher - 64) mod 16 <> 0 \/
      let size := le_int64 (firstn 8 (skipn 8 cipher)) in
      (size < 0 \/ Z.of_nat (length cipher - 64) < size)%Z)))).
Proof. exact (fun C HC cipher key mac => decode_opdata_panic C HC cipher key mac). Qed.
Print Assumptions C08_crash_exactly_partial.

(** It never ends the program in an orderly way either. *)
Theorem C08_no_exit_partial : forall C cipher key mac n, decode_opdata C cipher key mac <> Exit n.
Proof. exact decode_opdata_exit. Qed.
Print Assumptions C08_no_exit_partial.

(** ** C09: key sizes: the two halves of one 64 byte value. *)
Theorem C09_derived_key_sizes : forall C, crypto_ok C -> forall profile password k m,
  derived_keys C profile password = Ok (Val (k, m)) ->
  length k = 32 /\ length m = 32 /\
  exists salt iterations, k ++ m = pbkdf2 C password salt iterations.
Proof.
  intros C HC p pw k m H. destruct (derived_keys_len C HC p pw k m H) as [H1 H2].
  split; [exact H1|]. split; [exact H2|].
  unfold derived_keys in H. destruct (get_iterations p); cbn [rbind] in H; try discriminate.
  destruct (get_salt p); cbn [rbind] in H; try discriminate.
  destruct (b64_decode a0) as [s [|]]; try discriminate.
  apply val_pair_inv in H. destruct H as [-> ->]. exists s, a. apply firstn_skipn.
Qed.
Print Assumptions C09_derived_key_sizes.

Theorem C09_blob_key_sizes : forall C, crypto_ok C -> forall blob key mac k m,
  decode_keys C blob key mac = Ok (Val (k, m)) ->
  length k = 32 /\ length m = 32 /\
  exists plain buf, decode_opdata C blob key mac = Ok (Val plain, buf) /\ k ++ m = sha512 C plain.
Proof.
  intros C HC blob key mac k m H. destruct (decode_keys_len C HC blob key mac k m H) as [H1 H2].
  split; [exact H1|]. split; [exact H2|].
  unfold decode_keys in H.
  destruct (decode_opdata C blob key mac) as [[[p|e] buf]| |]; cbn [rbind fst] in H; try discriminate.
  apply val_pair_inv in H. destruct H as [-> ->]. exists p, buf. split; [reflexivity|].
  rewrite (firstn_all2 (n := 32) (skipn 32 (sha512 C p))).
  - apply firstn_skipn.
  - rewrite skipn_length, (sha512_len C HC). lia.
Qed.
Print Assumptions C09_blob_key_sizes.

Example C09_example :
  exists k m, derived_keys toy_crypto
    (Some [(b "iterations", JNum (f64_of_Z 50000)); (b "salt", JStr (b64_encode (b "salty")))])
    (b "freddy") = Ok (Val (k, m)).
Proof. eexists. eexists. vm_compute. reflexivity. Qed.

(** ** C13: the item keys are the ones the item was written with. *)
Theorem C13_item_keys_round_trip : forall C, crypto_ok C -> forall raw ks iv ikey imac,
  length (k_master ks) = 32 -> length iv = 16 -> length ikey = 32 -> length imac = 32 ->
  let body := iv ++ cbc_enc C (k_master ks) iv (ikey ++ imac) in
  wrapped (r_keys raw) (b64_encode (body ++ hmac256 C (k_master_mac ks) body)) ->
  item_keys C raw ks = Ok (ikey, imac).
Proof.
  intros C HC raw ks iv ikey imac Hk Hiv H1 H2 body Hw.
  apply (item_keys_written C HC raw ks iv ikey imac (hmac256 C (k_master_mac ks) body) (r_keys raw));
    auto using aes_key_ok_32. apply (hmac_len C HC).
Qed.
Print Assumptions C13_item_keys_round_trip.

(** ** C14: false: the MAC of a key blob is not looked at.  Any other 32 bytes in
    its place give the same keys. *)
Theorem C14_key_blob_mac_refuted : forall C, crypto_ok C -> forall raw ks iv ikey imac mac,
  length (k_master ks) = 32 -> length iv = 16 -> length ikey = 32 -> length imac = 32 ->
  length mac = 32 ->
  wrapped (r_keys raw) (b64_encode ((iv ++ cbc_enc C (k_master ks) iv (ikey ++ imac)) ++ mac)) ->
  item_keys C raw ks = Ok (ikey, imac).
Proof.
  intros C HC raw ks iv ikey imac mac Hk Hiv H1 H2 Hm Hw.
  eapply item_keys_written; eauto using aes_key_ok_32.
Qed.
Print Assumptions C14_key_blob_mac_refuted.

Example C13_C14_example :
  let ks := MkKeys [] [] (repeat "k"%char 32) (repeat "m"%char 32) [] [] in
  let iv := repeat "i"%char 16 in
  let body := iv ++ cbc_enc toy_crypto (k_master ks) iv (repeat "a"%char 32 ++ repeat "b"%char 32) in
  let raw t := MkRaw [] 0 [] [] (b64_encode (body ++ t)) [] false [] 0 in
  item_keys toy_crypto (raw (hmac256 toy_crypto (k_master_mac ks) body)) ks
    = Ok (repeat "a"%char 32, repeat "b"%char 32) /\
  item_keys toy_crypto (raw (repeat "?"%char 32)) ks = Ok (repeat "a"%char 32, repeat "b"%char 32) /\
  hmac256 toy_crypto (k_master_mac ks) body <> repeat "?"%char 32.
Proof. vm_compute. repeat split; discriminate. Qed.
