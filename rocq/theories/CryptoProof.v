(** Proofs about CBC, the opdata container and the key service. *)
From Verif Require Import Base Utf8 GoStrings Base64 Spec_Base64 Base64Proof Float64 Json Crypto
  Spec_Crypto Domain KeyService.
Open Scope res_scope.

(** ** Xor *)

Lemma lxor_lt a c : (a < 256)%N -> (c < 256)%N -> (N.lxor a c < 256)%N.
Proof.
  intros Ha Hc.
  destruct (N.eq_dec (N.lxor a c) 0) as [->|Hn]; [lia|].
  apply N.log2_lt_pow2 with (b := 8%N); [lia|].
  eapply N.le_lt_trans; [apply N.log2_lxor|].
  apply N.max_lub_lt.
  - destruct (N.eq_dec a 0) as [->|]; [simpl; lia|].
    apply N.log2_lt_pow2; [lia|]. exact Ha.
  - destruct (N.eq_dec c 0) as [->|]; [simpl; lia|].
    apply N.log2_lt_pow2; [lia|]. exact Hc.
Qed.

Lemma xor_byte_invol x y : xor_byte (xor_byte x y) y = x.
Proof.
  unfold xor_byte. rewrite vb_bv by (apply lxor_lt; apply vb_lt).
  rewrite N.lxor_assoc, N.lxor_nilpotent, N.lxor_0_r. apply bv_vb.
Qed.

Lemma xor_bytes_len x y : length x <= length y -> length (xor_bytes x y) = length x.
Proof.
  revert y; induction x as [|c x IH]; intros [|d y]; simpl; intros; try lia.
  rewrite IH by lia; reflexivity.
Qed.

Lemma xor_bytes_invol x y : length x <= length y -> xor_bytes (xor_bytes x y) y = x.
Proof.
  revert y; induction x as [|c x IH]; intros [|d y]; simpl; intros; try lia; auto.
  rewrite xor_byte_invol, IH by lia; reflexivity.
Qed.

(** ** The toy instance satisfies the laws *)

Lemma toy_pad_len n s : length (toy_pad n s) = n.
Proof.
  unfold toy_pad. rewrite firstn_length, app_length, repeat_length. lia.
Qed.

Lemma toy_crypto_ok : crypto_ok toy_crypto.
Proof.
  constructor; cbn [toy_crypto aes_enc aes_dec hmac256 sha512 pbkdf2 md5]; intros;
    try apply toy_pad_len; try (rewrite app_length, !toy_pad_len; reflexivity).
  - rewrite xor_bytes_len; [exact H|]. unfold toy_key; rewrite toy_pad_len; lia.
  - rewrite xor_bytes_len; [exact H|]. unfold toy_key; rewrite toy_pad_len; lia.
  - apply xor_bytes_invol. unfold toy_key; rewrite toy_pad_len; lia.
Qed.

(** ** CBC *)

Lemma val_pair_inv {A B} (x x' : A) (y y' : B) :
  Ok (Val (x, y)) = Ok (Val (x', y')) -> x' = x /\ y' = y.
Proof. intros H. injection H. auto. Qed.

Lemma ok_pair_inv {A B} (x x' : A) (y y' : B) :
  Ok (x, y) = Ok (x', y') -> x' = x /\ y' = y.
Proof. intros H. injection H. auto. Qed.

Section WithCrypto.
Variable C : crypto.
Hypothesis HC : crypto_ok C.

Lemma cbc_enc_blocks_len key n iv data :
  length iv = 16 -> length data = 16 * n ->
  length (cbc_enc_blocks C key n iv data) = 16 * n.
Proof.
  revert iv data; induction n as [|n IH]; intros iv data Hiv Hd; [reflexivity|].
  cbn [cbc_enc_blocks]. rewrite app_length.
  assert (Hb : length (aes_enc C key (xor_bytes (firstn 16 data) iv)) = 16).
  { apply (aes_enc_len C HC). rewrite xor_bytes_len; rewrite firstn_length; lia. }
  rewrite IH, Hb; [lia|exact Hb|]. rewrite skipn_length; lia.
Qed.

Lemma cbc_dec_blocks_len key n iv data :
  length iv = 16 -> length data = 16 * n ->
  length (cbc_dec_blocks C key n iv data) = 16 * n.
Proof.
  revert iv data; induction n as [|n IH]; intros iv data Hiv Hd; [reflexivity|].
  cbn [cbc_dec_blocks]. rewrite app_length.
  assert (Hf : length (firstn 16 data) = 16) by (rewrite firstn_length; lia).
  rewrite xor_bytes_len by (rewrite (aes_dec_len C HC); lia).
  rewrite (aes_dec_len C HC) by exact Hf.
  rewrite IH; [lia|exact Hf|]. rewrite skipn_length; lia.
Qed.

Lemma cbc_blocks_inv key n iv data :
  aes_key_ok key = true -> length iv = 16 -> length data = 16 * n ->
  cbc_dec_blocks C key n iv (cbc_enc_blocks C key n iv data) = data.
Proof.
  intros Hk. revert iv data; induction n as [|n IH]; intros iv data Hiv Hd.
  - destruct data; [reflexivity|discriminate].
  - cbn [cbc_enc_blocks cbc_dec_blocks].
    set (x := firstn 16 data). set (c := aes_enc C key (xor_bytes x iv)).
    assert (Hx : length x = 16) by (unfold x; rewrite firstn_length; lia).
    assert (Hxi : length (xor_bytes x iv) = 16) by (rewrite xor_bytes_len; lia).
    assert (Hc : length c = 16) by (apply (aes_enc_len C HC); exact Hxi).
    rewrite firstn_app_exact, skipn_app_exact by (symmetry; exact Hc).
    unfold c at 1. rewrite (aes_inv C HC) by assumption.
    rewrite xor_bytes_invol by lia.
    rewrite IH; [|exact Hc|rewrite skipn_length; lia].
    unfold x. apply firstn_skipn.
Qed.

Lemma cbc_dec_len key iv data :
  length iv = 16 -> length data mod 16 = 0 -> length (cbc_dec C key iv data) = length data.
Proof.
  intros Hiv Hm. unfold cbc_dec.
  assert (length data = 16 * (length data / 16)) as E.
  { pose proof (Nat.div_mod (length data) 16); lia. }
  rewrite cbc_dec_blocks_len; [lia|exact Hiv|exact E].
Qed.

Lemma cbc_enc_len key iv data :
  length iv = 16 -> length data mod 16 = 0 -> length (cbc_enc C key iv data) = length data.
Proof.
  intros Hiv Hm. unfold cbc_enc.
  assert (length data = 16 * (length data / 16)) as E.
  { pose proof (Nat.div_mod (length data) 16); lia. }
  rewrite cbc_enc_blocks_len; [lia|exact Hiv|exact E].
Qed.

Lemma cbc_inv key iv data :
  aes_key_ok key = true -> length iv = 16 -> length data mod 16 = 0 ->
  cbc_dec C key iv (cbc_enc C key iv data) = data.
Proof.
  intros Hk Hiv Hm. unfold cbc_dec. rewrite cbc_enc_len by assumption.
  unfold cbc_enc. apply cbc_blocks_inv; try assumption.
  pose proof (Nat.div_mod (length data) 16); lia.
Qed.

(** ** opdata *)

Lemma le_bytes_len k n : length (le_bytes k n) = k.
Proof. revert n; induction k; simpl; intros; auto. Qed.

Lemma le_val_bytes k n : (n < 256 ^ N.of_nat k)%N -> le_val (le_bytes k n) = n.
Proof.
  revert n; induction k as [|k IH]; intros n Hn.
  - simpl in *. lia.
  - cbn [le_bytes le_val]. rewrite vb_bv by (apply N.mod_lt; lia).
    rewrite IH.
    + pose proof (N.div_mod n 256). lia.
    + apply N.div_lt_upper_bound; [lia|].
      rewrite Nat2N.inj_succ, N.pow_succ_r' in Hn. lia.
Qed.

Lemma le_int64_bytes n : (n < 9223372036854775808)%N -> le_int64 (le_bytes 8 n) = Z.of_N n.
Proof.
  intros Hn. unfold le_int64.
  rewrite le_val_bytes.
  - destruct (Z.ltb_spec (Z.of_N n) 9223372036854775808); lia.
  - eapply N.lt_trans; [exact Hn|]. vm_compute; reflexivity.
Qed.

Lemma check_hmac_refl key m : check_hmac C m key (hmac256 C key m) = true.
Proof. apply bytes_eqb_refl. Qed.

Lemma opdata_roundtrip key mac iv pad plain :
  aes_key_ok key = true -> opdata_params iv pad plain ->
  decode_opdata C (opdata C key mac iv pad plain) key mac =
  Ok (Val plain, b "opdata01" ++ le_bytes 8 (N.of_nat (length plain)) ++ iv ++ pad ++ plain ++
                 hmac256 C mac (opdata_body C key iv pad plain)).
Proof.
  intros Hk (Hiv & Hm & Hn). unfold decode_opdata, opdata.
  set (body := opdata_body C key iv pad plain).
  assert (Hb : length body = 32 + length (pad ++ plain)).
  { unfold body, opdata_body. rewrite !app_length, le_bytes_len, Hiv.
    rewrite cbc_enc_len by assumption. rewrite app_length. simpl; lia. }
  assert (Hh : length (hmac256 C mac body) = 32) by apply (hmac_len C HC).
  rewrite app_length, Hh.
  destruct (Nat.ltb_spec (length body + 32) 32); [lia|].
  replace (length body + 32 - 32) with (length body) by lia.
  rewrite firstn_app_exact, skipn_app_exact by reflexivity.
  rewrite check_hmac_refl. cbn [negb].
  destruct (Nat.ltb_spec (length body) 32); [lia|].
  set (lenb := le_bytes 8 (N.of_nat (length plain))).
  assert (Hlenb : length lenb = 8) by apply le_bytes_len.
  set (enc := cbc_enc C key iv (pad ++ plain)).
  assert (Hbody : body = b "opdata01" ++ lenb ++ iv ++ enc) by reflexivity.
  assert (E1 : firstn 8 (skipn 8 body) = lenb).
  { rewrite Hbody. rewrite skipn_app_exact by reflexivity.
    apply firstn_app_exact; auto. }
  assert (E2 : skipn 16 body = iv ++ enc).
  { rewrite Hbody, app_assoc. apply skipn_app_exact. rewrite app_length, Hlenb; reflexivity. }
  assert (E3 : skipn 32 body = enc).
  { rewrite Hbody. rewrite (app_assoc lenb), (app_assoc (b "opdata01")).
    apply skipn_app_exact. rewrite !app_length, Hlenb, Hiv; reflexivity. }
  rewrite E1, E2, E3. rewrite firstn_app_exact by auto.
  unfold decode_data. rewrite Hk. cbn [negb]. rewrite Hiv. cbn [Nat.eqb negb].
  assert (Henc : length enc = length (pad ++ plain)) by (apply cbc_enc_len; assumption).
  rewrite Henc, Hm. cbn [Nat.eqb negb rbind].
  assert (Hdec : cbc_dec C key iv enc = pad ++ plain) by (apply cbc_inv; assumption).
  assert (Hsz : le_int64 lenb = Z.of_nat (length plain)).
  { unfold lenb. rewrite le_int64_bytes by exact Hn. apply nat_N_Z. }
  rewrite Hdec, Hsz, Nat2Z.id.
  replace ((0 <=? Z.of_nat (length plain))%Z &&
           (Z.of_nat (length plain) <=? Z.of_nat (length (pad ++ plain)))%Z)
    with true.
  2:{ symmetry. apply andb_true_iff. rewrite app_length. split; lia. }
  rewrite app_length.
  replace (length pad + length plain - length plain) with (length pad) by lia.
  rewrite skipn_app_exact by reflexivity.
  assert (E4 : firstn 32 body = b "opdata01" ++ lenb ++ iv).
  { rewrite Hbody. rewrite (app_assoc lenb), (app_assoc (b "opdata01")).
    apply firstn_app_exact. rewrite !app_length, Hlenb, Hiv; reflexivity. }
  rewrite E4. rewrite <- !app_assoc. reflexivity.
Qed.

(** When does it crash, refuse, succeed? *)
Lemma decode_opdata_refuse cipher key mac :
  32 <= length cipher ->
  hmac256 C mac (firstn (length cipher - 32) cipher) <> skipn (length cipher - 32) cipher ->
  decode_opdata C cipher key mac = Ok (Err ErrInvalidHmac, cipher).
Proof.
  intros Hl Hm. unfold decode_opdata.
  destruct (Nat.ltb_spec (length cipher) 32); [lia|].
  unfold check_hmac. destruct (bytes_eqb _ _) eqn:E; [|reflexivity].
  apply bytes_eqb_eq in E. contradiction.
Qed.

Lemma decode_opdata_auth cipher key mac r buf :
  decode_opdata C cipher key mac = Ok (r, buf) ->
  32 <= length cipher /\
  (hmac256 C mac (firstn (length cipher - 32) cipher) = skipn (length cipher - 32) cipher \/
   (r = Err ErrInvalidHmac /\ buf = cipher)).
Proof.
  unfold decode_opdata.
  destruct (Nat.ltb_spec (length cipher) 32); [discriminate|].
  unfold check_hmac. destruct (bytes_eqb _ _) eqn:E; cbn [negb].
  - apply bytes_eqb_eq in E. intros _; split; [assumption|]. left; exact E.
  - intros Hx. injection Hx as Hx1 Hx2. subst. split; [assumption|]. right; auto.
Qed.

(** Complete characterisation of success. *)
Lemma decode_opdata_ok_iff cipher key mac plain :
  (exists buf, decode_opdata C cipher key mac = Ok (Val plain, buf)) <->
  exists pre size iv data pad,
    cipher = (pre ++ size ++ iv ++ data) ++ hmac256 C mac (pre ++ size ++ iv ++ data) /\
    length pre = 8 /\ length size = 8 /\ length iv = 16 /\ length data mod 16 = 0 /\
    aes_key_ok key = true /\
    cbc_dec C key iv data = pad ++ plain /\
    le_int64 size = Z.of_nat (length plain).
Proof.
  split.
  - intros (buf & H). unfold decode_opdata in H.
    destruct (Nat.ltb_spec (length cipher) 32); [discriminate|].
    unfold check_hmac in H. destruct (bytes_eqb _ _) eqn:E; cbn [negb] in H; [|discriminate].
    apply bytes_eqb_eq in E.
    set (body := firstn (length cipher - 32) cipher) in *.
    destruct (Nat.ltb_spec (length body) 32) as [|Hb]; [discriminate|].
    unfold decode_data in H.
    destruct (aes_key_ok key) eqn:Ek; cbn [negb] in H; [|discriminate].
    destruct (Nat.eqb_spec (length (firstn 16 (skipn 16 body))) 16) as [Hiv|]; cbn [negb] in H; [|discriminate].
    destruct (Nat.eqb_spec (length (skipn 32 body) mod 16) 0) as [Hm|]; cbn [negb] in H; [|discriminate].
    cbn [rbind] in H.
    set (dec := cbc_dec C key (firstn 16 (skipn 16 body)) (skipn 32 body)) in *.
    set (sz := le_int64 (firstn 8 (skipn 8 body))) in *.
    destruct ((0 <=? sz)%Z && (sz <=? Z.of_nat (length dec))%Z) eqn:Es; [|discriminate].
    apply andb_true_iff in Es as [Es1 Es2].
    injection H as Hp Hbuf.
    exists (firstn 8 body), (firstn 8 (skipn 8 body)), (firstn 16 (skipn 16 body)), (skipn 32 body).
    exists (firstn (length dec - Z.to_nat sz) dec).
    assert (Hcat : firstn 8 body ++ firstn 8 (skipn 8 body) ++ firstn 16 (skipn 16 body) ++ skipn 32 body = body).
    { replace (skipn 32 body) with (skipn 16 (skipn 16 body)).
      2:{ rewrite <- (firstn_skipn 16 body) at 2.
          replace 32 with (16 + 16) by reflexivity. rewrite skipn_app.
          rewrite firstn_length_le by lia.
          rewrite (skipn_all2 (n := 16+16) (firstn 16 body)) by (rewrite firstn_length; lia).
          reflexivity. }
      rewrite firstn_skipn.
      replace (skipn 16 body) with (skipn 8 (skipn 8 body)).
      2:{ rewrite <- (firstn_skipn 8 body) at 2.
          replace 16 with (8 + 8) by reflexivity. rewrite skipn_app.
          rewrite firstn_length_le by lia.
          rewrite (skipn_all2 (n := 8+8) (firstn 8 body)) by (rewrite firstn_length; lia).
          reflexivity. }
      rewrite firstn_skipn. apply firstn_skipn. }
    rewrite Hcat.
    repeat split; try assumption.
    + unfold body at 1. rewrite E. rewrite firstn_skipn. reflexivity.
    + rewrite firstn_length; lia.
    + rewrite firstn_length, skipn_length; lia.
    + rewrite <- Hp. symmetry. apply firstn_skipn.
    + rewrite <- Hp, skipn_length. fold sz. lia.
  - intros (pre & size & iv & data & pad & -> & Hpre & Hsize & Hiv & Hm & Hk & Hdec & Hsz).
    set (body := pre ++ size ++ iv ++ data).
    assert (Hb : length body = 32 + length data)
      by (unfold body; rewrite !app_length; lia).
    assert (Hh : length (hmac256 C mac body) = 32) by apply (hmac_len C HC).
    eexists. unfold decode_opdata. rewrite app_length, Hh.
    destruct (Nat.ltb_spec (length body + 32) 32); [lia|].
    replace (length body + 32 - 32) with (length body) by lia.
    rewrite firstn_app_exact, skipn_app_exact by reflexivity.
    rewrite check_hmac_refl. cbn [negb].
    destruct (Nat.ltb_spec (length body) 32); [lia|].
    assert (E1 : firstn 8 (skipn 8 body) = size).
    { unfold body. rewrite skipn_app_exact by auto. apply firstn_app_exact; auto. }
    assert (E2 : skipn 16 body = iv ++ data).
    { unfold body. rewrite app_assoc. apply skipn_app_exact. rewrite app_length; lia. }
    assert (E3 : skipn 32 body = data).
    { unfold body. rewrite (app_assoc size), (app_assoc pre).
      apply skipn_app_exact. rewrite !app_length; lia. }
    rewrite E1, E2, E3. rewrite firstn_app_exact by auto.
    unfold decode_data. rewrite Hk. cbn [negb]. rewrite Hiv. cbn [Nat.eqb negb].
    rewrite Hm. cbn [Nat.eqb negb rbind].
    rewrite Hdec, Hsz, Nat2Z.id.
    replace ((0 <=? Z.of_nat (length plain))%Z &&
             (Z.of_nat (length plain) <=? Z.of_nat (length (pad ++ plain)))%Z) with true.
    2:{ symmetry. apply andb_true_iff. rewrite app_length. split; lia. }
    rewrite app_length. replace (length pad + length plain - length plain) with (length pad) by lia.
    rewrite skipn_app_exact by reflexivity. reflexivity.
Qed.

(** When it panics: too short, or authenticated but ill-formed. *)
Lemma decode_opdata_exit cipher key mac n : decode_opdata C cipher key mac <> Exit n.
Proof.
  unfold decode_opdata.
  repeat match goal with
  | |- context [if ?x then _ else _] => destruct x
  end; try discriminate.
  unfold decode_data.
  repeat match goal with
  | |- context [if ?x then _ else _] => destruct x
  end; cbn [rbind]; try discriminate.
  repeat match goal with
  | |- context [if ?x then _ else _] => destruct x
  end; discriminate.
Qed.

Lemma decode_opdata_short cipher key mac :
  length cipher < 32 -> decode_opdata C cipher key mac = Panic.
Proof. intros H. unfold decode_opdata. destruct (Nat.ltb_spec (length cipher) 32); [reflexivity|lia]. Qed.

(** ** Keys *)

Lemma decode_keys_opdata key mac iv pad plain :
  aes_key_ok key = true -> opdata_params iv pad plain ->
  decode_keys C (opdata C key mac iv pad plain) key mac =
  Ok (Val (firstn 32 (sha512 C plain), skipn 32 (sha512 C plain))).
Proof.
  intros Hk Hp. unfold decode_keys. rewrite opdata_roundtrip by assumption. cbn [rbind fst].
  rewrite (firstn_all2 (n := 32) (skipn 32 _)); [reflexivity|].
  rewrite skipn_length, (sha512_len C HC). lia.
Qed.

Lemma decode_keys_len blob key mac k m :
  decode_keys C blob key mac = Ok (Val (k, m)) -> length k = 32 /\ length m = 32.
Proof.
  unfold decode_keys. destruct (decode_opdata C blob key mac) as [[[p|e] ?]| |]; cbn [rbind fst]; try discriminate.
  intros H. apply val_pair_inv in H. destruct H as [-> ->].
  rewrite !firstn_length, skipn_length, (sha512_len C HC). lia.
Qed.

Lemma decode_keys_auth blob key mac :
  32 <= length blob ->
  hmac256 C mac (firstn (length blob - 32) blob) <> skipn (length blob - 32) blob ->
  decode_keys C blob key mac = Ok (Err ErrInvalidHmac).
Proof.
  intros. unfold decode_keys. now rewrite decode_opdata_refuse.
Qed.

Lemma decode_keys_len32 blob key mac k m : crypto_ok C ->
  decode_keys C blob key mac = Ok (Val (k, m)) -> length k = 32.
Proof.
  intros HC'. unfold decode_keys. destruct (decode_opdata C blob key mac) as [[[plain|e] buf]| |]; try discriminate.
  cbn [rbind fst]. intros H. apply val_pair_inv in H. destruct H as [-> _].
  rewrite firstn_length, (sha512_len C HC'). reflexivity.
Qed.

Lemma derived_keys_len p pw k m :
  derived_keys C p pw = Ok (Val (k, m)) -> length k = 32 /\ length m = 32.
Proof.
  unfold derived_keys. destruct (get_iterations p); cbn [rbind]; try discriminate.
  destruct (get_salt p); cbn [rbind]; try discriminate.
  destruct (b64_decode a0) as [s [|]]; try discriminate.
  intros H. apply val_pair_inv in H. destruct H as [-> ->].
  rewrite firstn_length, skipn_length, (pbkdf2_len C HC). lia.
Qed.

Lemma aes_key_ok_32 k : length k = 32 -> aes_key_ok k = true.
Proof. unfold aes_key_ok. intros ->. reflexivity. Qed.

Lemma item_keys_len raw ks k m :
  item_keys C raw ks = Ok (k, m) -> length k = 32 /\ length m = 32.
Proof.
  unfold item_keys.
  repeat match goal with
  | |- context [if ?x then _ else _] => destruct x eqn:?; try discriminate
  end.
  unfold decode_data.
  repeat match goal with
  | |- context [if ?x then _ else _] => destruct x eqn:?; try discriminate
  end; cbn [rbind]; try discriminate.
  destruct (Nat.ltb_spec (length (cbc_dec C (k_master ks)
           (firstn 16 (firstn (length (fst (b64_decode (r_keys raw))) - 32) (fst (b64_decode (r_keys raw)))))
           (skipn 16 (firstn (length (fst (b64_decode (r_keys raw))) - 32) (fst (b64_decode (r_keys raw))))) ++
         skipn (length (fst (b64_decode (r_keys raw))) - 32) (fst (b64_decode (r_keys raw))) ++
         repeat "000"%char (b64_cap (r_keys raw) - length (fst (b64_decode (r_keys raw)))))) 64); [discriminate|].
  intros Hx. apply ok_pair_inv in Hx. destruct Hx as [-> ->].
  rewrite !firstn_length, skipn_length. lia.
Qed.

Lemma firstn_app_le {A} n (x y : list A) : n <= length x -> firstn n (x ++ y) = firstn n x.
Proof. intros H. rewrite firstn_app. replace (n - length x) with 0 by lia. simpl. apply app_nil_r. Qed.

Lemma skipn_app_le {A} n (x y : list A) : n <= length x -> skipn n (x ++ y) = skipn n x ++ y.
Proof. intros H. rewrite skipn_app. replace (n - length x) with 0 by lia. reflexivity. Qed.

(** The key blob of an item, decrypted; its last 32 bytes are not looked at. *)
Lemma item_keys_written raw ks iv ikey imac mac t :
  aes_key_ok (k_master ks) = true ->
  length iv = 16 -> length ikey = 32 -> length imac = 32 -> length mac = 32 ->
  wrapped t (b64_encode ((iv ++ cbc_enc C (k_master ks) iv (ikey ++ imac)) ++ mac)) ->
  r_keys raw = t ->
  item_keys C raw ks = Ok (ikey, imac).
Proof.
  intros Hk Hiv Hik Him Hmac Hw Hr. unfold item_keys.
  rewrite Hr. rewrite (b64_decode_wrapped _ _ Hw). cbn [fst].
  assert (Hl : length (cbc_enc C (k_master ks) iv (ikey ++ imac)) = 64).
  { rewrite cbc_enc_len; [|exact Hiv|]; rewrite app_length, Hik, Him; reflexivity. }
  set (body := iv ++ cbc_enc C (k_master ks) iv (ikey ++ imac)).
  assert (Hb : length body = 80) by (unfold body; rewrite app_length, Hiv, Hl; reflexivity).
  cbn zeta. rewrite app_length, Hb, Hmac.
  change (80 + 32 <? 32) with false. cbn iota.
  change (80 + 32 - 32) with 80.
  rewrite firstn_app_exact by (now symmetry). rewrite Hb. change (80 <? 16) with false. cbn iota.
  unfold body at 1 2.
  rewrite firstn_app_exact by (now symmetry). rewrite skipn_app_exact by (now symmetry).
  unfold decode_data. rewrite Hk, Hiv, Hl. change (64 mod 16 =? 0) with true.
  cbn [negb Nat.eqb rbind].
  rewrite cbc_inv; [|exact Hk|exact Hiv|rewrite app_length, Hik, Him; reflexivity].
  match goal with |- context [if length (?x ++ ?y) <? 64 then _ else _] =>
    assert (Hx : (length (x ++ y) <? 64) = false) by
      (apply Nat.ltb_ge; rewrite !app_length, Hik, Him; lia); rewrite Hx end.
  f_equal. f_equal.
  - rewrite <- !app_assoc. apply firstn_app_exact. now symmetry.
  - rewrite <- !app_assoc. rewrite skipn_app_exact by (now symmetry).
    apply firstn_app_exact. now symmetry.
Qed.

(** When exactly DecodeOpdata crashes. *)
Lemma decode_opdata_panic cipher key mac :
  decode_opdata C cipher key mac = Panic <->
  length cipher < 32 \/
  (hmac256 C mac (firstn (length cipher - 32) cipher) = skipn (length cipher - 32) cipher /\
   (length cipher < 64 \/
    (aes_key_ok key = true /\
     ((length cipher - 64) mod 16 <> 0 \/
      let size := le_int64 (firstn 8 (skipn 8 cipher)) in
      (size < 0 \/ Z.of_nat (length cipher - 64) < size)%Z)))).
Proof.
  unfold decode_opdata.
  destruct (Nat.ltb_spec (length cipher) 32) as [Hl|Hl]; [split; auto|].
  unfold check_hmac.
  destruct (bytes_eqb (hmac256 C mac (firstn (length cipher - 32) cipher))
              (skipn (length cipher - 32) cipher)) eqn:Em.
  2:{ split; [discriminate|]. intros [H|[H _]]; [lia|]. apply bytes_eqb_neq in Em. congruence. }
  apply bytes_eqb_eq in Em. cbn [negb].
  assert (Hd : length (firstn (length cipher - 32) cipher) = length cipher - 32)
    by (rewrite firstn_length; lia).
  rewrite Hd.
  destruct (Nat.ltb_spec (length cipher - 32) 32) as [H2|H2].
  { split; [intros _|auto]. right. split; [exact Em|left; lia]. }
  assert (E8 : firstn 8 (skipn 8 (firstn (length cipher - 32) cipher)) = firstn 8 (skipn 8 cipher)).
  { rewrite skipn_firstn_comm, firstn_firstn. f_equal. lia. }
  rewrite E8. unfold decode_data.
  assert (Hiv : length (firstn 16 (skipn 16 (firstn (length cipher - 32) cipher))) = 16)
    by (rewrite firstn_length, skipn_length, Hd; lia).
  rewrite Hiv. cbn [Nat.eqb negb].
  assert (Hs : length (skipn 32 (firstn (length cipher - 32) cipher)) = length cipher - 64)
    by (rewrite skipn_length, Hd; lia).
  rewrite Hs.
  destruct (aes_key_ok key) eqn:Ek; cbn [negb rbind].
  2:{ split; [discriminate|]. intros [H|[_ [H|[H _]]]]; [lia|lia|discriminate]. }
  destruct (Nat.eqb_spec ((length cipher - 64) mod 16) 0) as [Hm|Hm]; cbn [negb rbind].
  2:{ split; [intros _|auto]. right. split; [exact Em|]. right. auto. }
  rewrite cbc_dec_len by (rewrite ?Hs; assumption). rewrite Hs.
  cbn zeta. set (size := le_int64 (firstn 8 (skipn 8 cipher))).
  destruct ((0 <=? size)%Z && (size <=? Z.of_nat (length cipher - 64))%Z) eqn:Es.
  - apply andb_true_iff in Es. destruct Es as [E1 E2].
    apply Z.leb_le in E1, E2. split; [discriminate|].
    intros [H|[_ [H|[_ [H|H]]]]]; lia.
  - split; [intros _|auto]. right. split; [exact Em|]. right. split; [reflexivity|]. right.
    apply andb_false_iff in Es. rewrite !Z.leb_gt in Es. lia.
Qed.

End WithCrypto.
