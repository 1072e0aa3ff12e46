(** What the list of releases of the project says: a specification that does not use the
    functions of Updater.v. *)
From Verif Require Import Base Utf8 Spec_Numeral GoStrings GoStringsProof Json World.

(** The n-th answer of the network, if it came in full. *)
Definition answer (w : world) (n : nat) (body : bytes) : Prop :=
  nth_error (w_net w) n = Some (NetBody body true).

Definition part_of (sub s : bytes) : Prop := exists p q, s = p ++ sub ++ q.
Definition has (m : gmap json) (k : bytes) (v : json) : Prop := mget k m = Some v.

(** An asset of a release with a name and an URL. *)
Definition asset (j : json) (name url : bytes) : Prop := exists m, j = JObj m /\
  has m (b "name") (JStr name) /\ has m (b "browser_download_url") (JStr url).
Definition is_archive (j : json) (url : bytes) : Prop := exists name, asset j name url /\ part_of (b ".tar.gz") name.
Definition is_checksum (j : json) (url : bytes) : Prop := exists name, asset j name url /\
  part_of (b ".md5") name /\ ~ part_of (b ".tar.gz") name.
(** One the program can read: it has a name, and an URL if it is one of these. *)
Definition fine_asset (j : json) : Prop := exists m name, j = JObj m /\ has m (b "name") (JStr name) /\
  (part_of (b ".tar.gz") name \/ part_of (b ".md5") name -> exists u, has m (b "browser_download_url") (JStr u)).

(** The URL of the last asset of a kind; empty if there is none. *)
Definition url_of (kind : json -> bytes -> Prop) (assets : list json) (u : bytes) : Prop :=
  (exists before j after, assets = before ++ j :: after /\ kind j u /\ forall k v, In k after -> ~ kind k v) \/
  (u = [] /\ forall k v, In k assets -> ~ kind k v).

Record offer := MkOffer {
  of_version : bytes;
  of_notes : bytes;
  of_archive : bytes;
  of_checksum : bytes;
}.

(** A JSON document. *)
Definition document (body : bytes) (j : json) : Prop := unmarshal body = (Some j, true).

(** The document is a list of releases, the newest first, and this is what the newest one offers. *)
Definition offers (body : bytes) (o : offer) : Prop := exists m rest assets,
  document body (JArr (JObj m :: rest)) /\
  has m (b "tag_name") (JStr (of_version o)) /\ has m (b "body") (JStr (of_notes o)) /\
  has m (b "assets") (JArr assets) /\ Forall fine_asset assets /\
  url_of is_archive assets (of_archive o) /\ url_of is_checksum assets (of_checksum o).

(** The document says that there is none. *)
Definition no_release (body : bytes) : Prop :=
  document body JNull \/ exists rest, document body (JArr (JNull :: rest)).

(** The document is a list that is empty or does not begin with a release as it should be. *)
Definition odd_list (body : bytes) : Prop :=
  (exists l, document body (JArr l)) /\ ~ no_release body /\ ~ exists o, offers body o.

(** The number read from a text is above [k] (an overlong number may have anything after it). *)
Definition reads_above (s : bytes) (k : Z) : Prop := exists p rest z,
  s = p ++ rest /\ numeral p z /\ (k < z)%Z /\ (rest = [] \/ (18446744073709551615 < z)%Z).
Definition without_dots (v : bytes) : bytes := filter (fun c => negb (Ascii.eqb c "."%char)) v.

(** What the program takes for newer than itself, 1.3.1 (see C56). *)
Definition newer (version : bytes) : Prop := reads_above (without_dots version) 131.
