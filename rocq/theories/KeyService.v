(** /repo/1pass-core/core/service/keyservice.go. *)
From Verif Require Import Base Utf8 GoStrings Base64 Float64 Json Crypto Domain.
Open Scope res_scope.

Section KeyService.
Variable C : crypto.

(** keyservice.go:34-53.  Writing to a hash never fails; hmac.Equal compares
    the contents. *)
Definition check_hmac (msg key desired : bytes) : bool :=
  bytes_eqb (hmac256 C key msg) desired.

Definition err_cipher_key : goerr := ErrOther (b "crypto/aes: invalid key size").

(** keyservice.go:55-66.  The result is the decrypted data, which also replaces
    the contents of the argument; CryptBlocks panics when the data is not whole
    blocks, NewCBCDecrypter when the IV is not 16 bytes. *)
Definition decode_data (key iv data : bytes) : res (eres bytes) :=
  if negb (aes_key_ok key) then Ok (Err err_cipher_key)
  else if negb (length iv =? 16) then Panic
  else if negb (length data mod 16 =? 0) then Panic
  else Ok (Val (cbc_dec C key iv data)).

(** keyservice.go:86-107.  The second component is what the caller's buffer
    holds afterwards: decryption is in place.  Slicing beyond the end panics;
    data[8:16] and data[16:32] are within the capacity of [cipherText] whenever
    line 87 did not panic. *)
Definition decode_opdata (cipher key mac_key : bytes) : res (eres bytes * bytes) :=
  if length cipher <? 32 then Panic
  else
    let n := length cipher - 32 in
    let data := firstn n cipher in
    let mac := skipn n cipher in
    if negb (check_hmac data mac_key mac) then Ok (Err ErrInvalidHmac, cipher)
    else if length data <? 32 then Panic
    else
      let plain_size := le_int64 (firstn 8 (skipn 8 data)) in
      d <- decode_data key (firstn 16 (skipn 16 data)) (skipn 32 data) ;;
      match d with
      | Err e => Ok (Err e, cipher)
      | Val plain =>
          if ((0 <=? plain_size) && (plain_size <=? Z.of_nat (length plain)))%Z then
            Ok (Val (skipn (length plain - Z.to_nat plain_size) plain),
                firstn 32 data ++ plain ++ mac)
          else Panic
      end.

(** keyservice.go:68-84 *)
Definition decode_keys (blob key mac : bytes) : res (eres (bytes * bytes)) :=
  base <- decode_opdata blob key mac ;;
  match fst base with
  | Err e => Ok (Err e)
  | Val plain =>
      let ks := sha512 C plain in
      Ok (Val (firstn 32 ks, firstn 32 (skipn 32 ks)))
  end.

(** profilerepo.go:24-38.  [profile] is the loaded profile map, [None] when no
    profile was loaded; reading a nil map gives nil and the type assertion
    panics. *)
Definition get_iterations (profile : option (gmap json)) : res Z :=
  f <- as_num (jget (b "iterations") profile) ;; Ok (f64_to_int64 f).
Definition get_master_key (profile : option (gmap json)) : res bytes :=
  as_str (jget (b "masterKey") profile).
Definition get_overview_key (profile : option (gmap json)) : res bytes :=
  as_str (jget (b "overviewKey") profile).
Definition get_salt (profile : option (gmap json)) : res bytes :=
  as_str (jget (b "salt") profile).

Definition err_base64 : goerr := ErrOther (b "illegal base64 data").

(** keyservice.go:109-120, with pbkdf2 as in
    1pass-parse/util/pbkdf2/cryptoutils.go:20-22. *)
Definition derived_keys (profile : option (gmap json)) (password : bytes)
  : res (eres (bytes * bytes)) :=
  iterations <- get_iterations profile ;;
  salt64 <- get_salt profile ;;
  match b64_decode salt64 with
  | (_, false) => Ok (Err err_base64)
  | (salt, true) =>
      let ks := pbkdf2 C password salt iterations in
      Ok (Val (firstn 32 ks, skipn 32 ks))
  end.

(** keyservice.go:122-128.  [plain[0:32]] and [plain[32:64]] are slices up to
    the capacity of the decoded base64 buffer: they may run into the bytes after
    the encrypted part (the MAC, then zeros up to the capacity). *)
Definition item_keys (raw : raw_item) (ks : keys) : res (bytes * bytes) :=
  let decoded := fst (b64_decode (r_keys raw)) in
  let n := length decoded in
  if n <? 32 then Panic
  else
    let data := firstn (n - 32) decoded in
    if length data <? 16 then Panic
    else
      d <- decode_data (k_master ks) (firstn 16 data) (skipn 16 data) ;;
      match d with
      | Err _ => Panic
      | Val plain =>
          let behind := skipn (n - 32) decoded ++ repeat "000"%char (b64_cap (r_keys raw) - n) in
          let backing := plain ++ behind in
          if length backing <? 64 then Panic
          else Ok (firstn 32 backing, firstn 32 (skipn 32 backing))
      end.

(** keyservice.go:130-138 *)
Definition master_keys (profile : option (gmap json)) (dk dm : bytes) : res (eres (bytes * bytes)) :=
  s <- get_master_key profile ;;
  match b64_decode s with
  | (_, false) => Ok (Err err_base64)
  | (encoded, true) => decode_keys encoded dk dm
  end.

(** keyservice.go:140-148 *)
Definition overview_keys (profile : option (gmap json)) (dk dm : bytes) : res (eres (bytes * bytes)) :=
  s <- get_overview_key profile ;;
  match b64_decode s with
  | (_, false) => Ok (Err err_base64)
  | (encoded, true) => decode_keys encoded dk dm
  end.

End KeyService.
