(** The laws of [crypto_ok] hold of the algorithms of RealCrypto.v. *)
From Verif Require Import Base Utf8 Crypto RealCrypto.

Lemma le_out_length n : forall x, length (le_out n x) = n.
Proof. induction n as [|n IH]; intros x; cbn [le_out length]; auto. Qed.

Lemma be_out_length n x : length (be_out n x) = n.
Proof. unfold be_out. rewrite rev_length. apply le_out_length. Qed.

Lemma sha_length P s : length (sha P s) = (8 * sp_bytes P)%nat.
Proof.
  unfold sha. destruct (sha_blocks _ _ _ _) as [[[[[[[a b'] c] d] e] f] g] h].
  cbn [sha_out]. rewrite !app_length, !be_out_length. lia.
Qed.

Lemma sha256_length s : length (sha sha256_params s) = 32.
Proof. apply sha_length. Qed.

Lemma sha512_length s : length (sha sha512_params s) = 64.
Proof. apply sha_length. Qed.

Lemma xor_bytes_length x : forall y, length (xor_bytes x y) = Nat.min (length x) (length y).
Proof. induction x as [|c x IH]; intros [|d y]; cbn [xor_bytes length]; auto. rewrite IH. reflexivity. Qed.

Lemma pbkdf2_sha512_length p s i : length (pbkdf2_sha512 p s i) = 64.
Proof.
  unfold pbkdf2_sha512.
  apply (N.iter_invariant (Z.to_N (i - 1)) _ _
    (fun q : bytes * bytes => length (fst q) = 64 /\ length (snd q) = 64)).
  - intros [u t] [Hu Ht]. cbn [fst snd] in *. split; [apply sha512_length|].
    rewrite xor_bytes_length, Ht. unfold hmac_sha512, hmac. rewrite sha512_length. reflexivity.
  - cbn [fst snd]. split; apply sha512_length.
Qed.

Lemma md5_sum_length s : length (md5_sum s) = 16.
Proof.
  unfold md5_sum. destruct (md5_blocks _ _ _) as [[[a b'] c] d].
  rewrite !app_length, !le_out_length. reflexivity.
Qed.

(** ** AES *)

Lemma bxor_involutive x y : bxor (bxor x y) y = x.
Proof.
  destruct x as [x0 x1 x2 x3 x4 x5 x6 x7], y as [y0 y1 y2 y3 y4 y5 y6 y7]. cbn [bxor].
  rewrite !xorb_assoc, !xorb_nilpotent, !xorb_false_r. reflexivity.
Qed.

Lemma bxors_length x : forall y, length (bxors x y) = Nat.min (length x) (length y).
Proof. induction x as [|c x IH]; intros [|d y]; cbn [bxors length]; auto. rewrite IH. reflexivity. Qed.

Lemma bxors_involutive x : forall y, length x <= length y -> bxors (bxors x y) y = x.
Proof.
  induction x as [|c x IH]; intros [|d y] H; cbn [bxors length] in *; try lia; auto.
  rewrite bxor_involutive, IH by lia. reflexivity.
Qed.

Lemma inv_sbox_sbox x : inv_sbox (sbox x) = x.
Proof.
  destruct x as [[] [] [] [] [] [] [] []]; vm_compute; reflexivity.
Qed.

Lemma inv_sub s : map inv_sbox (map sbox s) = s.
Proof. induction s as [|c s IH]; cbn [map]; [reflexivity|]. rewrite inv_sbox_sbox, IH. reflexivity. Qed.

Lemma inv_shift s : inv_shift_rows (shift_rows s) = s.
Proof.
  do 16 (destruct s as [|? s]; [reflexivity|]). destruct s; reflexivity.
Qed.

Lemma shift_rows_length s : length (shift_rows s) = length s.
Proof.
  do 16 (destruct s as [|? s]; [reflexivity|]). destruct s; reflexivity.
Qed.

Lemma inv_shift_rows_length s : length (inv_shift_rows s) = length s.
Proof.
  do 16 (destruct s as [|? s]; [reflexivity|]). destruct s; reflexivity.
Qed.

(** The product of the two matrices of FIPS 197, 5.1.3 and 5.3.3, is the
    identity; every bit of it is a sum of bits. *)
Lemma inv_mix_column a b c d s :
  inv_mix_columns (mix_columns (a :: b :: c :: d :: s)) = a :: b :: c :: d :: inv_mix_columns (mix_columns s).
Proof.
  cbn [mix_columns inv_mix_columns].
  destruct a as [a0 a1 a2 a3 a4 a5 a6 a7], b as [b0 b1 b2 b3 b4 b5 b6 b7],
    c as [c0 c1 c2 c3 c4 c5 c6 c7], d as [d0 d1 d2 d3 d4 d5 d6 d7].
  cbn [bxor xtime mul2 mul3 mul9 mul11 mul13 mul14].
  unfold mul2, mul3, mul9, mul11, mul13, mul14. cbn [bxor xtime].
  do 4 (apply f_equal2; [f_equal; ring|]). reflexivity.
Qed.

Lemma list4_ind (Q : bytes -> Prop) :
  (forall s, length s < 4 -> Q s) ->
  (forall a b c d s, Q s -> Q (a :: b :: c :: d :: s)) -> forall s, Q s.
Proof.
  intros H0 H4. fix IH 1. intros s.
  destruct s as [|a s]; [apply H0; cbn; lia|]. destruct s as [|b s]; [apply H0; cbn; lia|].
  destruct s as [|c s]; [apply H0; cbn; lia|]. destruct s as [|d s]; [apply H0; cbn; lia|].
  apply H4, IH.
Qed.

Lemma inv_mix s : inv_mix_columns (mix_columns s) = s.
Proof.
  induction s as [s H|a b c d s IH] using list4_ind.
  - do 4 (destruct s as [|? s]; [reflexivity|]). cbn in H. lia.
  - rewrite inv_mix_column, IH. reflexivity.
Qed.

Lemma mix_length s : length (mix_columns s) = length s.
Proof.
  induction s as [s H|a b c d s IH] using list4_ind.
  - do 4 (destruct s as [|? s]; [reflexivity|]). cbn in H. lia.
  - cbn [mix_columns length]. rewrite IH. reflexivity.
Qed.

Lemma inv_mix_length s : length (inv_mix_columns s) = length s.
Proof.
  induction s as [s H|a b c d s IH] using list4_ind.
  - do 4 (destruct s as [|? s]; [reflexivity|]). cbn in H. lia.
  - cbn [inv_mix_columns length]. rewrite IH. reflexivity.
Qed.

Definition keys16 (ks : list bytes) : Prop := Forall (fun k => length k = 16) ks.

Lemma round_keys_16 k : keys16 (round_keys k).
Proof.
  unfold round_keys, keys16. apply Forall_forall. intros x Hx.
  apply in_map_iff in Hx. destruct Hx as (r & <- & _).
  rewrite firstn_length, app_length, repeat_length. lia.
Qed.

Lemma round_keys_cons k : exists k0 ks, round_keys k = k0 :: ks /\ length k0 = 16 /\ keys16 ks.
Proof.
  pose proof (round_keys_16 k) as H.
  assert (L : length (round_keys k) <> 0)
    by (unfold round_keys; rewrite map_length, seq_length; lia).
  destruct (round_keys k) as [|k0 ks]; [elim L; reflexivity|].
  exists k0, ks. apply Forall_cons_iff in H. tauto.
Qed.

Lemma enc_rounds_length ks : keys16 ks -> forall s, length s = 16 -> length (enc_rounds ks s) = 16.
Proof.
  induction 1 as [|k ks Hk Hks IH]; intros s Hs; [exact Hs|].
  cbn [enc_rounds]. destruct ks as [|k' ks'].
  - rewrite bxors_length, shift_rows_length, map_length, Hs, Hk. reflexivity.
  - apply IH. rewrite bxors_length, mix_length, shift_rows_length, map_length, Hs, Hk. reflexivity.
Qed.

Lemma dec_rounds_length ks : keys16 ks -> forall s, length s = 16 -> length (dec_rounds ks s) = 16.
Proof.
  induction 1 as [|k ks Hk Hks IH]; intros s Hs; [exact Hs|].
  cbn [dec_rounds]. destruct ks as [|k' ks'].
  - rewrite map_length, inv_shift_rows_length, bxors_length, Hs, Hk. reflexivity.
  - rewrite map_length, inv_shift_rows_length, inv_mix_length, bxors_length, (IH _ Hs), Hk. reflexivity.
Qed.

Lemma rounds_inv ks : keys16 ks -> forall s, length s = 16 -> dec_rounds ks (enc_rounds ks s) = s.
Proof.
  induction 1 as [|k ks Hk Hks IH]; intros s Hs; [reflexivity|].
  cbn [enc_rounds dec_rounds]. destruct ks as [|k' ks'].
  - rewrite bxors_involutive by (rewrite shift_rows_length, map_length; lia).
    rewrite inv_shift, inv_sub. reflexivity.
  - rewrite IH by (rewrite bxors_length, mix_length, shift_rows_length, map_length, Hs, Hk; reflexivity).
    rewrite bxors_involutive by (rewrite mix_length, shift_rows_length, map_length; lia).
    rewrite inv_mix, inv_shift, inv_sub. reflexivity.
Qed.

Lemma aes_encrypt_length k s : length s = 16 -> length (aes_encrypt k s) = 16.
Proof.
  intros Hs. unfold aes_encrypt. destruct (round_keys_cons k) as (k0 & ks & -> & Hk & Hks). cbn [tl hd].
  apply enc_rounds_length; [exact Hks|]. rewrite bxors_length, Hs, Hk. reflexivity.
Qed.

Lemma aes_decrypt_length k s : length s = 16 -> length (aes_decrypt k s) = 16.
Proof.
  intros Hs. unfold aes_decrypt. destruct (round_keys_cons k) as (k0 & ks & -> & Hk & Hks). cbn [tl hd].
  rewrite bxors_length, (dec_rounds_length _ Hks _ Hs), Hk. reflexivity.
Qed.

Lemma aes_decrypt_encrypt k s : length s = 16 -> aes_decrypt k (aes_encrypt k s) = s.
Proof.
  intros Hs. unfold aes_decrypt, aes_encrypt.
  destruct (round_keys_cons k) as (k0 & ks & -> & Hk & Hks). cbn [tl hd].
  rewrite (rounds_inv _ Hks) by (rewrite bxors_length, Hs, Hk; reflexivity).
  apply bxors_involutive. lia.
Qed.

Lemma real_crypto_ok : crypto_ok real_crypto.
Proof.
  constructor; cbn [aes_enc aes_dec hmac256 sha512 pbkdf2 md5 real_crypto].
  - exact aes_encrypt_length.
  - exact aes_decrypt_length.
  - intros k x _. apply aes_decrypt_encrypt.
  - intros k m. apply sha256_length.
  - exact sha512_length.
  - exact pbkdf2_sha512_length.
  - exact md5_sum_length.
Qed.
