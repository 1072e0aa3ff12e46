(** An OPVault as its writer puts it on a disk, independently of the reader:
    directory layout, profile, band files, items. *)
From Verif Require Import Base Utf8 GoStrings Spec_Base64 Float64 Float64Proof Json Spec_Json Crypto
  Spec_Crypto Path Fs Domain Spec_Domain Spec_Item.

(** ** Layout *)

(** [path] names the directory at location [L], which holds a readable directory
    "default". *)
Record vault_dir (D : disk) (path : bytes) (L : loc) : Prop := {
  vd_path : resolve D path = Some L;
  vd_dir : fs_get (d_fs D) L = Some NDir;
  vd_default : fs_get (d_fs D) (b "default" :: L) = Some NDir;
  vd_readable : d_unreadable D (b "default" :: L) = false;
}.

(** A path without the characters * ? [ \ . *)
Definition plain_path (p : bytes) : Prop :=
  Forall (fun c => ~ In c ["*"; "?"; "["; "\"]%char) p.

Definition in_default (n : bytes) (L : loc) : loc := n :: b "default" :: L.

(** A readable file with this content. *)
Definition file_at (D : disk) (l : loc) (content : bytes) : Prop :=
  (exists mode, fs_get (d_fs D) l = Some (NFile content mode)) /\ d_unreadable D l = false.

(** band_X.js *)
Definition band_name (n : bytes) : Prop :=
  exists x, n = b "band_" ++ x ++ b ".js" /\ ~ In "/"%char x.

(** A band file that holds at least one member. *)
Definition band_text (ms : list (bytes * json)) (content : bytes) : Prop :=
  exists n t, (N.of_nat n <= 9999)%N /\ members_text n ms t /\
              content = b "ld({" ++ t ++ b "});".

(** The band files of the vault at [L], in the order of their names, each with
    its members; all other entries of the directory are unconstrained. *)
Record bands_at (D : disk) (L : loc) (bands : list (bytes * list (bytes * json))) : Prop := {
  ba_order : StronglySorted (fun x y => bytes_ltb x y = true) (map fst bands);
  ba_all : forall n, In n (map fst bands) <->
             band_name n /\ fs_get (d_fs D) (in_default n L) <> None;
  ba_text : Forall (fun nb => exists c, file_at D (in_default (fst nb) L) c /\
                                        band_text (snd nb) c) bands;
}.

(** The entries of the vault: all members of all bands, the last one winning
    for a repeated uid. *)
Definition entries_of (bands : list (bytes * list (bytes * json))) : gmap json :=
  obj_of (concat (map snd bands)).

(** ** Profile *)

(** var profile=...; *)
Definition profile_at (D : disk) (L : loc) (p : gmap json) : Prop :=
  exists t, json_doc (JObj p) t /\
            file_at D (in_default (b "profile.js") L) (b "var profile=" ++ t ++ b ";").

Definition in_2_53 (z : Z) : Prop := (-9007199254740992 < z < 9007199254740992)%Z.

(** An opdata blob in base64, possibly broken into lines. *)
Definition opdata_text (C : crypto) (key mac plain t : bytes) : Prop :=
  exists iv pad, opdata_params iv pad plain /\
                 wrapped t (b64_encode (opdata C key mac iv pad plain)).

(** A profile written for a password: the keys it protects. *)
Record profile_for (C : crypto) (password : bytes) (p : gmap json) (ks : keys) : Prop := {
  pf_derived : exists salt t i,
     has_str (b "salt") p t /\ wrapped t (b64_encode salt) /\
     mget (b "iterations") p = Some (JNum (f64_of_Z i)) /\ in_2_53 i /\
     k_derived ks ++ k_derived_mac ks = pbkdf2 C password salt i /\
     length (k_derived ks) = 32;
  pf_master : exists plain t,
     has_str (b "masterKey") p t /\
     opdata_text C (k_derived ks) (k_derived_mac ks) plain t /\
     k_master ks ++ k_master_mac ks = sha512 C plain /\ length (k_master ks) = 32;
  pf_overview : exists plain t,
     has_str (b "overviewKey") p t /\
     opdata_text C (k_derived ks) (k_derived_mac ks) plain t /\
     k_overview ks ++ k_overview_mac ks = sha512 C plain /\ length (k_overview ks) = 32;
}.

(** ** Items *)

(** A blob that ends in the MAC of what is before it. *)
Definition authentic (C : crypto) (mac blob : bytes) : Prop :=
  exists body, blob = body ++ hmac256 C mac body.

(** A document encrypted under a pair of keys. *)
Definition sealed (C : crypto) (key mac : bytes) (doc : gmap json) (t : bytes) : Prop :=
  exists plain, json_doc (JObj doc) plain /\ opdata_text C key mac plain t.

(** A blob that was not made with these keys. *)
Definition damaged (C : crypto) (mac t : bytes) : Prop :=
  exists data, wrapped t (b64_encode data) /\ 32 <= length data /\ ~ authentic C mac data.

(** The same, where a damaged blob stands for a document with nothing in it. *)
Definition sealed_or_damaged (C : crypto) (key mac : bytes) (doc : gmap json) (t : bytes) : Prop :=
  sealed C key mac doc t \/ (doc = [] /\ damaged C mac t).

(** [entry_with part C U tz ks uid e i]: the entry [e] of a band file is the item
    [i], written with the keys of the vault; [part key mac doc t] says how the
    document [doc] is stored as [t]. *)
Record entry_with (part : bytes -> bytes -> gmap json -> bytes -> Prop)
    (C : crypto) (U : unicode) (tz : Z -> Z) (ks : keys) (uid : bytes) (e : json)
    (i : item) : Prop := {
  en_uid : it_uid i = uid;
  en_cat : In (cat_code (it_cat i), cat_name (it_cat i)) published;
  en_object : exists m ikey imac overview details,
     e = JObj m /\ length ikey = 32 /\ length imac = 32 /\
     has_str (b "category") m (cat_code (it_cat i)) /\
     mget (b "created") m = Some (JNum (f64_of_Z (it_created i))) /\ in_2_53 (it_created i) /\
     mget (b "updated") m = Some (JNum (f64_of_Z (it_updated i))) /\ in_2_53 (it_updated i) /\
     (absent (b "trashed") m /\ it_trashed i = false \/
      mget (b "trashed") m = Some (JBool (it_trashed i))) /\
     (exists h, has_str (b "hmac") m h) /\
     (* the item's keys, under the master key *)
     (exists t iv, has_str (b "k") m t /\ length iv = 16 /\
        let body := iv ++ cbc_enc C (k_master ks) iv (ikey ++ imac) in
        wrapped t (b64_encode (body ++ hmac256 C (k_master_mac ks) body))) /\
     (* the overview, under the overview key *)
     (exists t, has_str (b "o") m t /\ part (k_overview ks) (k_overview_mac ks) overview t) /\
     (* the details, under the item's keys *)
     (exists t, has_str (b "d") m t /\ part ikey imac details t) /\
     text_of (b "title") overview (it_title i) /\
     text_of (b "url") overview (it_url i) /\
     text_of (b "notesPlain") details (it_notes i) /\
     shows_body U tz details (it_sections i);
}.

Definition entry_for (C : crypto) := entry_with (sealed C) C.

(** An entry that is not an item the program knows: it has the fields every
    entry has but its category is not published. *)
Definition foreign_entry (e : json) : Prop :=
  exists m code d h k o created updated,
    e = JObj m /\ has_str (b "category") m code /\ ~ In code (map fst published) /\
    has_str (b "d") m d /\ has_str (b "hmac") m h /\ has_str (b "k") m k /\ has_str (b "o") m o /\
    mget (b "created") m = Some (JNum created) /\ mget (b "updated") m = Some (JNum updated) /\
    (absent (b "trashed") m \/ exists t, mget (b "trashed") m = Some (JBool t)).

(** The items of a list of entries, in their order. *)
Inductive items_with (part : bytes -> bytes -> gmap json -> bytes -> Prop)
    (C : crypto) (U : unicode) (tz : Z -> Z) (ks : keys) : gmap json -> list item -> Prop :=
| if_nil : items_with part C U tz ks [] []
| if_item uid e i m l :
    entry_with part C U tz ks uid e i -> items_with part C U tz ks m l ->
    items_with part C U tz ks ((uid, e) :: m) (i :: l)
| if_foreign uid e m l :
    foreign_entry e -> items_with part C U tz ks m l ->
    items_with part C U tz ks ((uid, e) :: m) l.

Definition items_for (C : crypto) := items_with (sealed C) C.

(** A complete vault: [items] are the items of its entries. *)
Record vault_with (part : bytes -> bytes -> gmap json -> bytes -> Prop)
    (C : crypto) (U : unicode) (tz : Z -> Z) (D : disk) (path password : bytes)
    (ks : keys) (items : list item) : Prop := {
  va_layout : exists L p bands,
     vault_dir D path L /\ plain_path path /\
     profile_at D L p /\ profile_for C password p ks /\
     bands_at D L bands /\ items_with part C U tz ks (entries_of bands) items;
}.

Definition vault_at (C : crypto) := vault_with (sealed C) C.

(** ** Notions used by single properties *)

(** The bytes a base64 text stands for. *)
Definition base64_of (t data : bytes) : Prop := wrapped t (b64_encode data).

(** What an entry says about its item outside the encrypted parts. *)
Definition entry_meta (e : json) (i : item) : Prop :=
  exists m created updated,
    e = JObj m /\ has_str (b "category") m (cat_code (it_cat i)) /\
    In (cat_code (it_cat i), cat_name (it_cat i)) published /\
    mget (b "created") m = Some (JNum created) /\ it_created i = f64_to_int64 created /\
    mget (b "updated") m = Some (JNum updated) /\ it_updated i = f64_to_int64 updated /\
    (absent (b "trashed") m /\ it_trashed i = false \/
     mget (b "trashed") m = Some (JBool (it_trashed i))).

(** An entry whose category the program knows. *)
Definition known_entry (e : json) : Prop :=
  exists m code, e = JObj m /\ has_str (b "category") m code /\ In code (map fst published).

(** The parts of an entry that are not encrypted, chosen by somebody who knows no
    key, and the item with them. *)
Record metadata := MkMeta {
  me_cat : category;
  me_created : Z;
  me_updated : Z;
  me_trashed : bool;
  me_hmac : bytes;
}.

Definition metadata_ok (x : metadata) : Prop :=
  In (cat_code (me_cat x), cat_name (me_cat x)) published /\
  in_2_53 (me_created x) /\ in_2_53 (me_updated x).

Definition forge (x : metadata) (e : json) : json :=
  match e with
  | JObj m =>
      JObj (mset (b "category") (JStr (cat_code (me_cat x)))
           (mset (b "created") (JNum (f64_of_Z (me_created x)))
           (mset (b "updated") (JNum (f64_of_Z (me_updated x)))
           (mset (b "trashed") (JBool (me_trashed x))
           (mset (b "hmac") (JStr (me_hmac x)) m)))))
  | _ => e
  end.

Definition forged_item (x : metadata) (i : item) : item :=
  MkItem (me_cat x) (me_created x) (it_notes i) (it_title i) (me_trashed x) (it_sections i)
         (it_uid i) (it_url i) (me_updated x).

(** An entry that lacks a part every entry has, or has it with another type. *)
Definition malformed_entry (e : json) : Prop :=
  (forall m, e <> JObj m) \/
  exists m, e = JObj m /\
    ((forall f, mget (b "created") m <> Some (JNum f)) \/
     (forall f, mget (b "updated") m <> Some (JNum f)) \/
     (forall s, mget (b "category") m <> Some (JStr s)) \/
     (forall s, mget (b "d") m <> Some (JStr s)) \/
     (forall s, mget (b "hmac") m <> Some (JStr s)) \/
     (forall s, mget (b "k") m <> Some (JStr s)) \/
     (forall s, mget (b "o") m <> Some (JStr s)) \/
     (~ absent (b "trashed") m /\ forall x, mget (b "trashed") m <> Some (JBool x))).
