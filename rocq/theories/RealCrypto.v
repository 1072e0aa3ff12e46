(** The algorithms behind the record of Crypto.v, written out: SHA-256 and
    SHA-512 (FIPS 180-4), MD5 (RFC 1321), HMAC (RFC 2104), PBKDF2 (RFC 8018) and
    AES (FIPS 197).

    None of this code is in /repo, which calls crypto/hmac with crypto/sha256
    (1pass-core/core/service/keyservice.go:35), crypto/aes (keyservice.go:56),
    crypto/sha512 (keyservice.go:75, 117), golang.org/x/crypto/pbkdf2
    (1pass-parse/util/pbkdf2/cryptoutils.go) and crypto/md5
    (1pass-up/component/github/updater.go:249).  What is written here is what the
    standards prescribe, so that the laws the other theorems ask of the record can
    be proved of the algorithms themselves. *)
From Verif Require Import Base Utf8 Crypto.

(** ** Words *)

(** [n] bytes of a number, the lowest first. *)
Fixpoint le_out (n : nat) (x : N) : bytes :=
  match n with
  | 0 => []
  | S n' => bv (N.modulo x 256) :: le_out n' (N.div x 256)
  end.

Definition be_out (n : nat) (x : N) : bytes := rev (le_out n x).
Definition be_val (s : bytes) : N := le_val (rev s).

(** A byte string as words of [n] bytes. *)
Fixpoint words (val : bytes -> N) (n count : nat) (s : bytes) : list N :=
  match count with
  | 0 => []
  | S count' => val (firstn n s) :: words val n count' (skipn n s)
  end.

(** Arithmetic on words of [w] bits. *)
Definition wadd (w x y : N) : N := N.land (x + y) (N.ones w).
Definition wnot (w x : N) : N := N.lxor x (N.ones w).
Definition rotr (w n x : N) : N :=
  N.lor (N.shiftr x n) (N.land (N.shiftl x (w - n)) (N.ones w)).
Definition rotl (w n x : N) : N := rotr w (w - n) x.

(** ** SHA-2 *)

Definition sha_state : Type := (N * N * N * N * N * N * N * N)%type.

Record sha_params := {
  sp_bits : N;                (* bits in a word *)
  sp_bytes : nat;             (* bytes in a word *)
  sp_S0 : N -> N; sp_S1 : N -> N;   (* the functions written with capital sigma *)
  sp_s0 : N -> N; sp_s1 : N -> N;   (* the functions written with small sigma *)
  sp_K : list N;
  sp_H : sha_state;
}.

(** FIPS 180-4, 4.1.2 and 4.1.3. *)
Definition ch (w x y z : N) : N := N.lxor (N.land x y) (N.land (wnot w x) z).
Definition maj (x y z : N) : N := N.lxor (N.land x y) (N.lxor (N.land x z) (N.land y z)).

Definition sha_step (P : sha_params) (k wt : N) (st : sha_state) : sha_state :=
  let add := wadd (sp_bits P) in
  let '(a, b, c, d, e, f, g, h) := st in
  let t1 := add (add (add h (sp_S1 P e)) (ch (sp_bits P) e f g)) (add k wt) in
  let t2 := add (sp_S0 P a) (maj a b c) in
  (add t1 t2, a, b, c, add d t1, e, f, g).

(** The rounds over the constants [ks].  [win] holds the schedule words of this
    round and of the fifteen that follow. *)
Fixpoint sha_rounds (P : sha_params) (ks win : list N) (st : sha_state) : sha_state :=
  match ks with
  | [] => st
  | k :: ks' =>
      let add := wadd (sp_bits P) in
      let w0 := nth 0 win 0%N in
      let next := add (add (sp_s1 P (nth 14 win 0%N)) (nth 9 win 0%N))
                      (add (sp_s0 P (nth 1 win 0%N)) w0) in
      sha_rounds P ks' (tl win ++ [next]) (sha_step P k w0 st)
  end.

Definition sha_add (P : sha_params) (x y : sha_state) : sha_state :=
  let add := wadd (sp_bits P) in
  let '(a, b, c, d, e, f, g, h) := x in
  let '(a', b', c', d', e', f', g', h') := y in
  (add a a', add b b', add c c', add d d', add e e', add f f', add g g', add h h').

Fixpoint sha_blocks (P : sha_params) (n : nat) (s : bytes) (st : sha_state) : sha_state :=
  match n with
  | 0 => st
  | S n' =>
      let st' := sha_add P st (sha_rounds P (sp_K P) (words be_val (sp_bytes P) 16 s) st) in
      sha_blocks P n' (skipn (16 * sp_bytes P) s) st'
  end.

(** FIPS 180-4, 5.1: one bit, zeros, and the length in bits in two words. *)
Definition sha_pad (P : sha_params) (s : bytes) : bytes :=
  let block := (16 * sp_bytes P)%nat in
  let zeros := ((2 * block - 1 - 2 * sp_bytes P - length s mod block) mod block)%nat in
  s ++ "128"%char :: repeat "000"%char zeros
    ++ be_out (2 * sp_bytes P) (8 * N.of_nat (length s)).

Definition sha_out (P : sha_params) (st : sha_state) : bytes :=
  let out := be_out (sp_bytes P) in
  let '(a, b, c, d, e, f, g, h) := st in
  out a ++ out b ++ out c ++ out d ++ out e ++ out f ++ out g ++ out h.

Definition sha (P : sha_params) (s : bytes) : bytes :=
  let p := sha_pad P s in
  sha_out P (sha_blocks P (length p / (16 * sp_bytes P)) p (sp_H P)).

Definition xor3 (x y z : N) : N := N.lxor x (N.lxor y z).

Definition sha256_params : sha_params := {|
  sp_bits := 32; sp_bytes := 4;
  sp_S0 x := xor3 (rotr 32 2 x) (rotr 32 13 x) (rotr 32 22 x);
  sp_S1 x := xor3 (rotr 32 6 x) (rotr 32 11 x) (rotr 32 25 x);
  sp_s0 x := xor3 (rotr 32 7 x) (rotr 32 18 x) (N.shiftr x 3);
  sp_s1 x := xor3 (rotr 32 17 x) (rotr 32 19 x) (N.shiftr x 10);
  sp_K := [
   0x428a2f98; 0x71374491; 0xb5c0fbcf; 0xe9b5dba5; 0x3956c25b; 0x59f111f1; 0x923f82a4; 0xab1c5ed5;
   0xd807aa98; 0x12835b01; 0x243185be; 0x550c7dc3; 0x72be5d74; 0x80deb1fe; 0x9bdc06a7; 0xc19bf174;
   0xe49b69c1; 0xefbe4786; 0x0fc19dc6; 0x240ca1cc; 0x2de92c6f; 0x4a7484aa; 0x5cb0a9dc; 0x76f988da;
   0x983e5152; 0xa831c66d; 0xb00327c8; 0xbf597fc7; 0xc6e00bf3; 0xd5a79147; 0x06ca6351; 0x14292967;
   0x27b70a85; 0x2e1b2138; 0x4d2c6dfc; 0x53380d13; 0x650a7354; 0x766a0abb; 0x81c2c92e; 0x92722c85;
   0xa2bfe8a1; 0xa81a664b; 0xc24b8b70; 0xc76c51a3; 0xd192e819; 0xd6990624; 0xf40e3585; 0x106aa070;
   0x19a4c116; 0x1e376c08; 0x2748774c; 0x34b0bcb5; 0x391c0cb3; 0x4ed8aa4a; 0x5b9cca4f; 0x682e6ff3;
   0x748f82ee; 0x78a5636f; 0x84c87814; 0x8cc70208; 0x90befffa; 0xa4506ceb; 0xbef9a3f7; 0xc67178f2]%N;
  sp_H := (
   0x6a09e667, 0xbb67ae85, 0x3c6ef372, 0xa54ff53a, 0x510e527f, 0x9b05688c, 0x1f83d9ab, 0x5be0cd19)%N;
|}.

Definition sha512_params : sha_params := {|
  sp_bits := 64; sp_bytes := 8;
  sp_S0 x := xor3 (rotr 64 28 x) (rotr 64 34 x) (rotr 64 39 x);
  sp_S1 x := xor3 (rotr 64 14 x) (rotr 64 18 x) (rotr 64 41 x);
  sp_s0 x := xor3 (rotr 64 1 x) (rotr 64 8 x) (N.shiftr x 7);
  sp_s1 x := xor3 (rotr 64 19 x) (rotr 64 61 x) (N.shiftr x 6);
  sp_K := [
   0x428a2f98d728ae22; 0x7137449123ef65cd; 0xb5c0fbcfec4d3b2f; 0xe9b5dba58189dbbc;
   0x3956c25bf348b538; 0x59f111f1b605d019; 0x923f82a4af194f9b; 0xab1c5ed5da6d8118;
   0xd807aa98a3030242; 0x12835b0145706fbe; 0x243185be4ee4b28c; 0x550c7dc3d5ffb4e2;
   0x72be5d74f27b896f; 0x80deb1fe3b1696b1; 0x9bdc06a725c71235; 0xc19bf174cf692694;
   0xe49b69c19ef14ad2; 0xefbe4786384f25e3; 0x0fc19dc68b8cd5b5; 0x240ca1cc77ac9c65;
   0x2de92c6f592b0275; 0x4a7484aa6ea6e483; 0x5cb0a9dcbd41fbd4; 0x76f988da831153b5;
   0x983e5152ee66dfab; 0xa831c66d2db43210; 0xb00327c898fb213f; 0xbf597fc7beef0ee4;
   0xc6e00bf33da88fc2; 0xd5a79147930aa725; 0x06ca6351e003826f; 0x142929670a0e6e70;
   0x27b70a8546d22ffc; 0x2e1b21385c26c926; 0x4d2c6dfc5ac42aed; 0x53380d139d95b3df;
   0x650a73548baf63de; 0x766a0abb3c77b2a8; 0x81c2c92e47edaee6; 0x92722c851482353b;
   0xa2bfe8a14cf10364; 0xa81a664bbc423001; 0xc24b8b70d0f89791; 0xc76c51a30654be30;
   0xd192e819d6ef5218; 0xd69906245565a910; 0xf40e35855771202a; 0x106aa07032bbd1b8;
   0x19a4c116b8d2d0c8; 0x1e376c085141ab53; 0x2748774cdf8eeb99; 0x34b0bcb5e19b48a8;
   0x391c0cb3c5c95a63; 0x4ed8aa4ae3418acb; 0x5b9cca4f7763e373; 0x682e6ff3d6b2b8a3;
   0x748f82ee5defb2fc; 0x78a5636f43172f60; 0x84c87814a1f0ab72; 0x8cc702081a6439ec;
   0x90befffa23631e28; 0xa4506cebde82bde9; 0xbef9a3f7b2c67915; 0xc67178f2e372532b;
   0xca273eceea26619c; 0xd186b8c721c0c207; 0xeada7dd6cde0eb1e; 0xf57d4f7fee6ed178;
   0x06f067aa72176fba; 0x0a637dc5a2c898a6; 0x113f9804bef90dae; 0x1b710b35131c471b;
   0x28db77f523047d84; 0x32caab7b40c72493; 0x3c9ebe0a15c9bebc; 0x431d67c49c100d4c;
   0x4cc5d4becb3e42b6; 0x597f299cfc657e2a; 0x5fcb6fab3ad6faec; 0x6c44198c4a475817]%N;
  sp_H := (
   0x6a09e667f3bcc908, 0xbb67ae8584caa73b, 0x3c6ef372fe94f82b, 0xa54ff53a5f1d36f1,
   0x510e527fade682d1, 0x9b05688c2b3e6c1f, 0x1f83d9abfb41bd6b, 0x5be0cd19137e2179)%N;
|}.

(** ** HMAC and PBKDF2 *)

(** RFC 2104, for a hash with blocks of [block] bytes. *)
Definition hmac (hash : bytes -> bytes) (block : nat) (key msg : bytes) : bytes :=
  let k := if length key <=? block then key else hash key in
  let k0 := k ++ repeat "000"%char (block - length k) in
  let pad c := xor_bytes k0 (repeat c block) in
  hash (pad "092"%char ++ hash (pad "054"%char ++ msg)).

Definition hmac_sha256 : bytes -> bytes -> bytes := hmac (sha sha256_params) 64.
Definition hmac_sha512 : bytes -> bytes -> bytes := hmac (sha sha512_params) 128.

(** RFC 8018, 5.2, for a key of one block (64 bytes).  As in
    golang.org/x/crypto/pbkdf2, fewer than two iterations are one iteration. *)
Definition pbkdf2_sha512 (password salt : bytes) (iter : Z) : bytes :=
  let u1 := hmac_sha512 password (salt ++ be_out 4 1) in
  let step p := let u := hmac_sha512 password (fst p) in (u, xor_bytes (snd p) u) in
  snd (N.iter (Z.to_N (iter - 1)) step (u1, u1)).

(** ** MD5 *)

Definition md5_state : Type := (N * N * N * N)%type.

(** RFC 1321, 3.4: the function, the word and the rotation of step [i]. *)
Definition md5_f (i : nat) (x y z : N) : N :=
  match (i / 16)%nat with
  | 0 => N.lor (N.land x y) (N.land (wnot 32 x) z)
  | 1 => N.lor (N.land x z) (N.land y (wnot 32 z))
  | 2 => xor3 x y z
  | _ => N.lxor y (N.lor x (wnot 32 z))
  end.

Definition md5_g (i : nat) : nat :=
  match (i / 16)%nat with
  | 0 => i
  | 1 => ((5 * i + 1) mod 16)%nat
  | 2 => ((3 * i + 5) mod 16)%nat
  | _ => ((7 * i) mod 16)%nat
  end.

Definition md5_r (i : nat) : N :=
  nth (4 * (i / 16) + i mod 4)%nat
    [7; 12; 17; 22; 5; 9; 14; 20; 4; 11; 16; 23; 6; 10; 15; 21]%N 0%N.

Fixpoint md5_rounds (ks : list N) (i : nat) (m : list N) (st : md5_state) : md5_state :=
  match ks with
  | [] => st
  | k :: ks' =>
      let '(a, b, c, d) := st in
      let f := wadd 32 (wadd 32 a (md5_f i b c d)) (wadd 32 k (nth (md5_g i) m 0%N)) in
      md5_rounds ks' (S i) m (d, wadd 32 b (rotl 32 (md5_r i) f), b, c)
  end.

Definition md5_K : list N := [
   0xd76aa478; 0xe8c7b756; 0x242070db; 0xc1bdceee; 0xf57c0faf; 0x4787c62a; 0xa8304613; 0xfd469501;
   0x698098d8; 0x8b44f7af; 0xffff5bb1; 0x895cd7be; 0x6b901122; 0xfd987193; 0xa679438e; 0x49b40821;
   0xf61e2562; 0xc040b340; 0x265e5a51; 0xe9b6c7aa; 0xd62f105d; 0x02441453; 0xd8a1e681; 0xe7d3fbc8;
   0x21e1cde6; 0xc33707d6; 0xf4d50d87; 0x455a14ed; 0xa9e3e905; 0xfcefa3f8; 0x676f02d9; 0x8d2a4c8a;
   0xfffa3942; 0x8771f681; 0x6d9d6122; 0xfde5380c; 0xa4beea44; 0x4bdecfa9; 0xf6bb4b60; 0xbebfbc70;
   0x289b7ec6; 0xeaa127fa; 0xd4ef3085; 0x04881d05; 0xd9d4d039; 0xe6db99e5; 0x1fa27cf8; 0xc4ac5665;
   0xf4292244; 0x432aff97; 0xab9423a7; 0xfc93a039; 0x655b59c3; 0x8f0ccc92; 0xffeff47d; 0x85845dd1;
   0x6fa87e4f; 0xfe2ce6e0; 0xa3014314; 0x4e0811a1; 0xf7537e82; 0xbd3af235; 0x2ad7d2bb; 0xeb86d391]%N.

Fixpoint md5_blocks (n : nat) (s : bytes) (st : md5_state) : md5_state :=
  match n with
  | 0 => st
  | S n' =>
      let '(a, b, c, d) := st in
      let '(a', b', c', d') := md5_rounds md5_K 0 (words le_val 4 16 s) st in
      md5_blocks n' (skipn 64 s) (wadd 32 a a', wadd 32 b b', wadd 32 c c', wadd 32 d d')
  end.

Definition md5_pad (s : bytes) : bytes :=
  s ++ "128"%char :: repeat "000"%char ((119 - length s mod 64) mod 64)
    ++ le_out 8 (8 * N.of_nat (length s)).

Definition md5_sum (s : bytes) : bytes :=
  let p := md5_pad s in
  let '(a, b, c, d) := md5_blocks (length p / 64) p (0x67452301, 0xefcdab89, 0x98badcfe, 0x10325476)%N in
  le_out 4 a ++ le_out 4 b ++ le_out 4 c ++ le_out 4 d.

(** ** AES *)

(** Addition in GF(2^8): exclusive or, bit by bit. *)
Definition bxor (x y : ascii) : ascii :=
  match x, y with
  | Ascii a0 a1 a2 a3 a4 a5 a6 a7, Ascii b0 b1 b2 b3 b4 b5 b6 b7 =>
      Ascii (xorb a0 b0) (xorb a1 b1) (xorb a2 b2) (xorb a3 b3)
            (xorb a4 b4) (xorb a5 b5) (xorb a6 b6) (xorb a7 b7)
  end.

(** Multiplication by x modulo x^8 + x^4 + x^3 + x + 1 (FIPS 197, 4.2.1). *)
Definition xtime (x : ascii) : ascii :=
  match x with
  | Ascii a0 a1 a2 a3 a4 a5 a6 a7 =>
      Ascii a7 (xorb a0 a7) a1 (xorb a2 a7) (xorb a3 a7) a4 a5 a6
  end.

Definition mul2 := xtime.
Definition mul3 x := bxor (xtime x) x.
Definition mul9 x := bxor (xtime (xtime (xtime x))) x.
Definition mul11 x := bxor (xtime (bxor (xtime (xtime x)) x)) x.
Definition mul13 x := bxor (xtime (xtime (bxor (xtime x) x))) x.
Definition mul14 x := xtime (bxor (xtime (bxor (xtime x) x)) x).

(** The substitution tables (FIPS 197, figures 7 and 14). *)
Definition sbox_table : list N := [
   0x63; 0x7c; 0x77; 0x7b; 0xf2; 0x6b; 0x6f; 0xc5; 0x30; 0x01; 0x67; 0x2b; 0xfe; 0xd7; 0xab; 0x76;
   0xca; 0x82; 0xc9; 0x7d; 0xfa; 0x59; 0x47; 0xf0; 0xad; 0xd4; 0xa2; 0xaf; 0x9c; 0xa4; 0x72; 0xc0;
   0xb7; 0xfd; 0x93; 0x26; 0x36; 0x3f; 0xf7; 0xcc; 0x34; 0xa5; 0xe5; 0xf1; 0x71; 0xd8; 0x31; 0x15;
   0x04; 0xc7; 0x23; 0xc3; 0x18; 0x96; 0x05; 0x9a; 0x07; 0x12; 0x80; 0xe2; 0xeb; 0x27; 0xb2; 0x75;
   0x09; 0x83; 0x2c; 0x1a; 0x1b; 0x6e; 0x5a; 0xa0; 0x52; 0x3b; 0xd6; 0xb3; 0x29; 0xe3; 0x2f; 0x84;
   0x53; 0xd1; 0x00; 0xed; 0x20; 0xfc; 0xb1; 0x5b; 0x6a; 0xcb; 0xbe; 0x39; 0x4a; 0x4c; 0x58; 0xcf;
   0xd0; 0xef; 0xaa; 0xfb; 0x43; 0x4d; 0x33; 0x85; 0x45; 0xf9; 0x02; 0x7f; 0x50; 0x3c; 0x9f; 0xa8;
   0x51; 0xa3; 0x40; 0x8f; 0x92; 0x9d; 0x38; 0xf5; 0xbc; 0xb6; 0xda; 0x21; 0x10; 0xff; 0xf3; 0xd2;
   0xcd; 0x0c; 0x13; 0xec; 0x5f; 0x97; 0x44; 0x17; 0xc4; 0xa7; 0x7e; 0x3d; 0x64; 0x5d; 0x19; 0x73;
   0x60; 0x81; 0x4f; 0xdc; 0x22; 0x2a; 0x90; 0x88; 0x46; 0xee; 0xb8; 0x14; 0xde; 0x5e; 0x0b; 0xdb;
   0xe0; 0x32; 0x3a; 0x0a; 0x49; 0x06; 0x24; 0x5c; 0xc2; 0xd3; 0xac; 0x62; 0x91; 0x95; 0xe4; 0x79;
   0xe7; 0xc8; 0x37; 0x6d; 0x8d; 0xd5; 0x4e; 0xa9; 0x6c; 0x56; 0xf4; 0xea; 0x65; 0x7a; 0xae; 0x08;
   0xba; 0x78; 0x25; 0x2e; 0x1c; 0xa6; 0xb4; 0xc6; 0xe8; 0xdd; 0x74; 0x1f; 0x4b; 0xbd; 0x8b; 0x8a;
   0x70; 0x3e; 0xb5; 0x66; 0x48; 0x03; 0xf6; 0x0e; 0x61; 0x35; 0x57; 0xb9; 0x86; 0xc1; 0x1d; 0x9e;
   0xe1; 0xf8; 0x98; 0x11; 0x69; 0xd9; 0x8e; 0x94; 0x9b; 0x1e; 0x87; 0xe9; 0xce; 0x55; 0x28; 0xdf;
   0x8c; 0xa1; 0x89; 0x0d; 0xbf; 0xe6; 0x42; 0x68; 0x41; 0x99; 0x2d; 0x0f; 0xb0; 0x54; 0xbb; 0x16]%N.

Definition inv_sbox_table : list N := [
   0x52; 0x09; 0x6a; 0xd5; 0x30; 0x36; 0xa5; 0x38; 0xbf; 0x40; 0xa3; 0x9e; 0x81; 0xf3; 0xd7; 0xfb;
   0x7c; 0xe3; 0x39; 0x82; 0x9b; 0x2f; 0xff; 0x87; 0x34; 0x8e; 0x43; 0x44; 0xc4; 0xde; 0xe9; 0xcb;
   0x54; 0x7b; 0x94; 0x32; 0xa6; 0xc2; 0x23; 0x3d; 0xee; 0x4c; 0x95; 0x0b; 0x42; 0xfa; 0xc3; 0x4e;
   0x08; 0x2e; 0xa1; 0x66; 0x28; 0xd9; 0x24; 0xb2; 0x76; 0x5b; 0xa2; 0x49; 0x6d; 0x8b; 0xd1; 0x25;
   0x72; 0xf8; 0xf6; 0x64; 0x86; 0x68; 0x98; 0x16; 0xd4; 0xa4; 0x5c; 0xcc; 0x5d; 0x65; 0xb6; 0x92;
   0x6c; 0x70; 0x48; 0x50; 0xfd; 0xed; 0xb9; 0xda; 0x5e; 0x15; 0x46; 0x57; 0xa7; 0x8d; 0x9d; 0x84;
   0x90; 0xd8; 0xab; 0x00; 0x8c; 0xbc; 0xd3; 0x0a; 0xf7; 0xe4; 0x58; 0x05; 0xb8; 0xb3; 0x45; 0x06;
   0xd0; 0x2c; 0x1e; 0x8f; 0xca; 0x3f; 0x0f; 0x02; 0xc1; 0xaf; 0xbd; 0x03; 0x01; 0x13; 0x8a; 0x6b;
   0x3a; 0x91; 0x11; 0x41; 0x4f; 0x67; 0xdc; 0xea; 0x97; 0xf2; 0xcf; 0xce; 0xf0; 0xb4; 0xe6; 0x73;
   0x96; 0xac; 0x74; 0x22; 0xe7; 0xad; 0x35; 0x85; 0xe2; 0xf9; 0x37; 0xe8; 0x1c; 0x75; 0xdf; 0x6e;
   0x47; 0xf1; 0x1a; 0x71; 0x1d; 0x29; 0xc5; 0x89; 0x6f; 0xb7; 0x62; 0x0e; 0xaa; 0x18; 0xbe; 0x1b;
   0xfc; 0x56; 0x3e; 0x4b; 0xc6; 0xd2; 0x79; 0x20; 0x9a; 0xdb; 0xc0; 0xfe; 0x78; 0xcd; 0x5a; 0xf4;
   0x1f; 0xdd; 0xa8; 0x33; 0x88; 0x07; 0xc7; 0x31; 0xb1; 0x12; 0x10; 0x59; 0x27; 0x80; 0xec; 0x5f;
   0x60; 0x51; 0x7f; 0xa9; 0x19; 0xb5; 0x4a; 0x0d; 0x2d; 0xe5; 0x7a; 0x9f; 0x93; 0xc9; 0x9c; 0xef;
   0xa0; 0xe0; 0x3b; 0x4d; 0xae; 0x2a; 0xf5; 0xb0; 0xc8; 0xeb; 0xbb; 0x3c; 0x83; 0x53; 0x99; 0x61;
   0x17; 0x2b; 0x04; 0x7e; 0xba; 0x77; 0xd6; 0x26; 0xe1; 0x69; 0x14; 0x63; 0x55; 0x21; 0x0c; 0x7d]%N.

Definition sbox (x : ascii) : ascii := bv (nth (N.to_nat (vb x)) sbox_table 0%N).
Definition inv_sbox (x : ascii) : ascii := bv (nth (N.to_nat (vb x)) inv_sbox_table 0%N).

Fixpoint bxors (x y : bytes) : bytes :=
  match x, y with
  | c :: x', d :: y' => bxor c d :: bxors x' y'
  | _, _ => []
  end.

(** The state is the sixteen bytes of the block in order: the columns of the
    square of FIPS 197, 3.4, one after the other. *)
Definition shift_rows (s : bytes) : bytes :=
  match s with
  | [x0; x1; x2; x3; x4; x5; x6; x7; x8; x9; x10; x11; x12; x13; x14; x15] =>
      [x0; x5; x10; x15; x4; x9; x14; x3; x8; x13; x2; x7; x12; x1; x6; x11]
  | _ => s
  end.

Definition inv_shift_rows (s : bytes) : bytes :=
  match s with
  | [x0; x1; x2; x3; x4; x5; x6; x7; x8; x9; x10; x11; x12; x13; x14; x15] =>
      [x0; x13; x10; x7; x4; x1; x14; x11; x8; x5; x2; x15; x12; x9; x6; x3]
  | _ => s
  end.

Fixpoint mix_columns (s : bytes) : bytes :=
  match s with
  | a :: b :: c :: d :: s' =>
      bxor (bxor (mul2 a) (mul3 b)) (bxor c d) ::
      bxor (bxor a (mul2 b)) (bxor (mul3 c) d) ::
      bxor (bxor a b) (bxor (mul2 c) (mul3 d)) ::
      bxor (bxor (mul3 a) b) (bxor c (mul2 d)) :: mix_columns s'
  | _ => s
  end.

Fixpoint inv_mix_columns (s : bytes) : bytes :=
  match s with
  | a :: b :: c :: d :: s' =>
      bxor (bxor (mul14 a) (mul11 b)) (bxor (mul13 c) (mul9 d)) ::
      bxor (bxor (mul9 a) (mul14 b)) (bxor (mul11 c) (mul13 d)) ::
      bxor (bxor (mul13 a) (mul9 b)) (bxor (mul14 c) (mul11 d)) ::
      bxor (bxor (mul11 a) (mul13 b)) (bxor (mul9 c) (mul14 d)) :: inv_mix_columns s'
  | _ => s
  end.

Definition rot_word (w : bytes) : bytes := tl w ++ firstn 1 w.

(** Key expansion (FIPS 197, 5.2).  [win] holds the last [nk] words made, [i] is
    the number of the next one, and [count] words are still to be given out. *)
Fixpoint expand (count nk i : nat) (rcon : ascii) (win : list bytes) : list bytes :=
  match count with
  | 0 => []
  | S count' =>
      let last := last win [] in
      let temp :=
        if (i mod nk =? 0)%nat then bxors (map sbox (rot_word last)) [rcon; "000"%char; "000"%char; "000"%char]
        else if ((6 <? nk) && (i mod nk =? 4))%nat then map sbox last
        else last in
      let rcon' := if (i mod nk =? 0)%nat then xtime rcon else rcon in
      hd [] win :: expand count' nk (S i) rcon' (tl win ++ [bxors (hd [] win) temp])
  end.

Fixpoint key_words (n : nat) (k : bytes) : list bytes :=
  match n with
  | 0 => []
  | S n' => firstn 4 k :: key_words n' (skipn 4 k)
  end.

(** The round keys, from the first to the last. *)
Definition round_keys (k : bytes) : list bytes :=
  let nk := (length k / 4)%nat in
  let rounds := (nk + 7)%nat in
  let w := List.concat (expand (4 * rounds) nk nk "001"%char (key_words nk k)) in
  map (fun r => firstn 16 (skipn (16 * r) w ++ repeat "000"%char 16)) (seq 0 rounds).

(** FIPS 197, 5.1 after the first AddRoundKey. *)
Fixpoint enc_rounds (ks : list bytes) (s : bytes) : bytes :=
  match ks with
  | [] => s
  | k :: ks' =>
      match ks' with
      | [] => bxors (shift_rows (map sbox s)) k
      | _ :: _ => enc_rounds ks' (bxors (mix_columns (shift_rows (map sbox s))) k)
      end
  end.

(** FIPS 197, 5.3 up to the last AddRoundKey: the last round key is used first. *)
Fixpoint dec_rounds (ks : list bytes) (s : bytes) : bytes :=
  match ks with
  | [] => s
  | k :: ks' =>
      match ks' with
      | [] => map inv_sbox (inv_shift_rows (bxors s k))
      | _ :: _ => map inv_sbox (inv_shift_rows (inv_mix_columns (bxors (dec_rounds ks' s) k)))
      end
  end.

Definition aes_encrypt (key block : bytes) : bytes :=
  let ks := round_keys key in
  enc_rounds (tl ks) (bxors block (hd [] ks)).

Definition aes_decrypt (key block : bytes) : bytes :=
  let ks := round_keys key in
  bxors (dec_rounds (tl ks) block) (hd [] ks).

(** ** The record *)

(** What keyservice.go:34-120, cryptoutils.go:20-22 and updater.go:236-265 call. *)
Definition real_crypto : crypto := {|
  aes_enc := aes_encrypt;
  aes_dec := aes_decrypt;
  hmac256 := hmac_sha256;
  sha512 := sha sha512_params;
  pbkdf2 := pbkdf2_sha512;
  md5 := md5_sum;
|}.
