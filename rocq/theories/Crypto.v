(** The cryptographic primitives the program calls (standard library and
    golang.org/x/crypto, not part of /repo) as a record, and CBC mode. *)
From Verif Require Import Base Utf8.

Record crypto := {
  aes_enc : bytes -> bytes -> bytes;   (* key, block; used by specifications only *)
  aes_dec : bytes -> bytes -> bytes;   (* key, block: crypto/aes Block.Decrypt *)
  hmac256 : bytes -> bytes -> bytes;   (* key, message: crypto/hmac with sha256 *)
  sha512 : bytes -> bytes;             (* crypto/sha512 *)
  pbkdf2 : bytes -> bytes -> Z -> bytes; (* password, salt, iterations: 64 bytes, sha512 *)
  md5 : bytes -> bytes;                (* crypto/md5 *)
}.

(** Keys aes.NewCipher accepts. *)
Definition aes_key_ok (k : bytes) : bool :=
  (length k =? 16) || (length k =? 24) || (length k =? 32).

(** What is assumed of the primitives: sizes, and that decryption inverts
    encryption.  Nothing is assumed about secrecy or collisions. *)
Record crypto_ok (C : crypto) : Prop := {
  aes_enc_len : forall k x, length x = 16 -> length (aes_enc C k x) = 16;
  aes_dec_len : forall k x, length x = 16 -> length (aes_dec C k x) = 16;
  aes_inv : forall k x, aes_key_ok k = true -> length x = 16 ->
            aes_dec C k (aes_enc C k x) = x;
  hmac_len : forall k m, length (hmac256 C k m) = 32;
  sha512_len : forall m, length (sha512 C m) = 64;
  pbkdf2_len : forall p s i, length (pbkdf2 C p s i) = 64;
  md5_len : forall m, length (md5 C m) = 16;
}.

Definition xor_byte (x y : ascii) : ascii := bv (N.lxor (vb x) (vb y)).

Fixpoint xor_bytes (x y : bytes) : bytes :=
  match x, y with
  | c :: x', d :: y' => xor_byte c d :: xor_bytes x' y'
  | _, _ => []
  end.

(** cipher.NewCBCDecrypter(block, iv).CryptBlocks for [n] blocks. *)
Fixpoint cbc_dec_blocks (C : crypto) (key : bytes) (n : nat) (iv data : bytes) : bytes :=
  match n with
  | 0 => []
  | S n' =>
      let c := firstn 16 data in
      xor_bytes (aes_dec C key c) iv ++ cbc_dec_blocks C key n' c (skipn 16 data)
  end.

Definition cbc_dec (C : crypto) (key iv data : bytes) : bytes :=
  cbc_dec_blocks C key (length data / 16) iv data.

(** A 64-bit little-endian signed integer (encoding/binary). *)
Fixpoint le_val (s : bytes) : N :=
  match s with
  | [] => 0%N
  | c :: s' => (vb c + 256 * le_val s')%N
  end.

Definition le_int64 (s : bytes) : Z :=
  let n := Z.of_N (le_val s) in
  if (n <? 9223372036854775808)%Z then n else (n - 18446744073709551616)%Z.

(** A toy instance, to show that the laws can hold together. *)
Definition toy_pad (n : nat) (s : bytes) : bytes := firstn n (s ++ repeat "000"%char n).
Definition toy_key (k : bytes) : bytes := toy_pad 16 k.
Definition toy_sum (s : bytes) : bytes :=
  [bv (fold_left (fun a c => (a * 31 + vb c) mod 256)%N s 7%N);
   bv (fold_left (fun a c => (a * 17 + vb c) mod 256)%N s 11%N)].

Definition toy_crypto : crypto := {|
  aes_enc k x := xor_bytes x (toy_key k);
  aes_dec k x := xor_bytes x (toy_key k);
  hmac256 k m := toy_pad 32 (toy_sum (k ++ m) ++ toy_sum m);
  sha512 m := toy_pad 32 (m ++ toy_sum m) ++ toy_pad 32 (toy_sum m ++ m);
  pbkdf2 p s i := toy_pad 32 (toy_sum p ++ toy_sum s ++ p) ++ toy_pad 32 (p ++ s);
  md5 m := toy_pad 16 (toy_sum m);
|}.
