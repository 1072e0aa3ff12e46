(** A writer of vaults, independent of the program: it puts a profile and band
    files on an empty disk.  It shows that the vaults the theorems speak about
    exist, for every password and every set of items. *)
From Verif Require Import Base Utf8 GoStrings Spec_Base64 Float64 Float64Proof Json Spec_Json JsonPrint
  Crypto Spec_Crypto Path Fs Domain Spec_Domain Spec_Item Spec_Vault.

(** An item as its writer has it: two documents and the item's own keys. *)
Record stored := MkStored {
  w_uid : bytes;
  w_code : bytes;
  w_created : Z;
  w_updated : Z;
  w_trashed : bool;
  w_overview : gmap json;
  w_details : gmap json;
  w_key : bytes;
  w_mac : bytes;
}.

(** The secrets of a vault. *)
Record secrets := MkSecrets {
  w_salt : bytes;
  w_iterations : Z;
  w_master : bytes;
  w_over : bytes;
}.

Definition zero_iv : bytes := repeat "000"%char 16.
Definition pad_for (plain : bytes) : bytes := repeat "000"%char (16 - length plain mod 16).

(** A disk with nothing but the vault in the directory [dir] of the root: the
    profile file and further files next to it. *)
Definition put_disk (dir : bytes) (profile : bytes) (files : list (bytes * bytes)) : disk :=
  let at_default n := n :: b "default" :: [dir] in
  MkDisk
    ([ ([dir], NDir);
       ([b "default"; dir], NDir);
       (at_default (b "profile.js"), NFile profile 420) ]
     ++ map (fun nf => (at_default (fst nf), NFile (snd nf) 420%N)) files)
    [] (fun _ => false).

Definition profile_text (p : gmap json) : bytes := b "var profile=" ++ print_json (JObj p) ++ b ";".

Section Writer.
Variable C : crypto.

Definition write_opdata (key mac plain : bytes) : bytes :=
  b64_encode (opdata C key mac zero_iv (pad_for plain) plain).

Definition keys_of (password : bytes) (w : secrets) : keys :=
  let d := pbkdf2 C password (w_salt w) (w_iterations w) in
  let m := sha512 C (w_master w) in
  let o := sha512 C (w_over w) in
  MkKeys (firstn 32 d) (skipn 32 d) (firstn 32 m) (skipn 32 m) (firstn 32 o) (skipn 32 o).

Definition write_profile (password : bytes) (w : secrets) : gmap json :=
  let ks := keys_of password w in
  [ (b "salt", JStr (b64_encode (w_salt w)));
    (b "iterations", JNum (f64_of_Z (w_iterations w)));
    (b "masterKey", JStr (write_opdata (k_derived ks) (k_derived_mac ks) (w_master w)));
    (b "overviewKey", JStr (write_opdata (k_derived ks) (k_derived_mac ks) (w_over w))) ].

Definition write_entry (ks : keys) (s : stored) : json :=
  let body := zero_iv ++ cbc_enc C (k_master ks) zero_iv (w_key s ++ w_mac s) in
  JObj
  [ (b "category", JStr (w_code s));
    (b "created", JNum (f64_of_Z (w_created s)));
    (b "d", JStr (write_opdata (w_key s) (w_mac s) (print_json (JObj (w_details s)))));
    (b "hmac", JStr (b64_encode (hmac256 C (k_overview_mac ks) (w_uid s))));
    (b "k", JStr (b64_encode (body ++ hmac256 C (k_master_mac ks) body)));
    (b "o", JStr (write_opdata (k_overview ks) (k_overview_mac ks) (print_json (JObj (w_overview s)))));
    (b "trashed", JBool (w_trashed s));
    (b "updated", JNum (f64_of_Z (w_updated s))) ].

Definition write_members (ks : keys) (l : list stored) : list (bytes * json) :=
  map (fun s => (w_uid s, write_entry ks s)) l.

Definition write_band (ks : keys) (l : list stored) : bytes :=
  b "ld({" ++ print_members (write_members ks l) ++ b "});".

(** The vault in the directory [dir] of the root: its bands are given by name. *)
Definition write_disk (dir : bytes) (password : bytes) (w : secrets) (bands : list (bytes * list stored)) : disk :=
  put_disk dir (profile_text (write_profile password w))
    (map (fun nb => (fst nb, write_band (keys_of password w) (snd nb))) bands).

End Writer.

(** What a writer must respect. *)
Record storable (s : stored) : Prop := {
  so_uid : valid_utf8 (w_uid s);
  so_cat : In (w_code s) (map fst published);
  so_created : in_2_53 (w_created s);
  so_updated : in_2_53 (w_updated s);
  so_key : length (w_key s) = 32 /\ length (w_mac s) = 32;
  so_docs : exists n, (N.of_nat n <= 10000)%N /\
            printable n (JObj (w_overview s)) /\ printable n (JObj (w_details s));
  so_size : (N.of_nat (length (print_json (JObj (w_overview s)))) < 9223372036854775808)%N /\
            (N.of_nat (length (print_json (JObj (w_details s)))) < 9223372036854775808)%N;
}.

(** The item a stored item is to be shown as. *)
Record shown_as (U : unicode) (tz : Z -> Z) (s : stored) (i : item) : Prop := {
  sh_uid : it_uid i = w_uid s;
  sh_cat : cat_code (it_cat i) = w_code s /\ In (w_code s, cat_name (it_cat i)) published;
  sh_times : it_created i = w_created s /\ it_updated i = w_updated s;
  sh_trashed : it_trashed i = w_trashed s;
  sh_title : text_of (b "title") (w_overview s) (it_title i);
  sh_url : text_of (b "url") (w_overview s) (it_url i);
  sh_notes : text_of (b "notesPlain") (w_details s) (it_notes i);
  sh_body : shows_body U tz (w_details s) (it_sections i);
}.

Record bands_ok (bands : list (bytes * list stored)) : Prop := {
  bo_order : StronglySorted (fun x y => bytes_ltb x y = true) (map fst bands);
  bo_names : Forall (fun nb => band_name (fst nb) /\ snd nb <> []) bands;
  bo_uids : NoDup (map w_uid (concat (map snd bands)));
  bo_items : Forall storable (concat (map snd bands));
}.

Record secrets_ok (w : secrets) : Prop := {
  se_iterations : in_2_53 (w_iterations w);
  se_master : (N.of_nat (length (w_master w)) < 9223372036854775808)%N;
  se_over : (N.of_nat (length (w_over w)) < 9223372036854775808)%N;
}.
