(** The writer's side of the opdata01 format: CBC encryption and the container
    with padding in front, length, initialisation vector and MAC. *)
From Verif Require Import Base Utf8 Crypto.

Fixpoint cbc_enc_blocks (C : crypto) (key : bytes) (n : nat) (iv data : bytes) : bytes :=
  match n with
  | 0 => []
  | S n' =>
      let c := aes_enc C key (xor_bytes (firstn 16 data) iv) in
      c ++ cbc_enc_blocks C key n' c (skipn 16 data)
  end.

Definition cbc_enc (C : crypto) (key iv data : bytes) : bytes :=
  cbc_enc_blocks C key (length data / 16) iv data.

(** Little-endian bytes of a number. *)
Fixpoint le_bytes (k : nat) (n : N) : bytes :=
  match k with
  | 0 => []
  | S k' => bv (n mod 256) :: le_bytes k' (n / 256)
  end.

(** The encrypted part of an opdata container before its MAC: 8 byte magic,
    plaintext length, IV, encryption of padding ++ plaintext. *)
Definition opdata_body (C : crypto) (key iv pad plain : bytes) : bytes :=
  b "opdata01" ++ le_bytes 8 (N.of_nat (length plain)) ++ iv ++ cbc_enc C key iv (pad ++ plain).

Definition opdata (C : crypto) (key mac iv pad plain : bytes) : bytes :=
  opdata_body C key iv pad plain ++ hmac256 C mac (opdata_body C key iv pad plain).

(** The parameters an OPVault writer chooses: a 16 byte IV and enough random
    padding to fill the last block. *)
Definition opdata_params (iv pad plain : bytes) : Prop :=
  length iv = 16 /\ length (pad ++ plain) mod 16 = 0 /\
  (N.of_nat (length plain) < 9223372036854775808)%N.
