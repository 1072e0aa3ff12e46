(** What the parts of a decrypted item document are to be shown as, stated on the
    JSON objects of the OPVault format and independently of the code. *)
From Verif Require Import Base Utf8 Spec_Trim Spec_Numeral GoStrings Float64 Float64Proof Json Civil Spec_Civil CivilProof
  Domain Spec_Domain.

(** A key of an object that is absent or null. *)
Definition absent (k : bytes) (m : gmap json) : Prop := mget k m = None \/ mget k m = Some JNull.
Definition has_str (k : bytes) (m : gmap json) (s : bytes) : Prop := mget k m = Some (JStr s).

Section Shows.
Variable U : unicode.
Variable tz : Z -> Z.

(** The local calendar date of a Unix time is year-month-day. *)
Definition local_date (u y m d : Z) : Prop :=
  valid_date y m d /\ day_number y m d = ((u + tz u) / 86400)%Z.

(** A text with line breaks turned into spaces and blanks around it removed. *)
Definition one_line (s t : bytes) : Prop :=
  exists u, trimmed s u /\ t = map (fun c => if Ascii.eqb c "010"%char then " "%char else c) u.

(** The line for a part of an address. *)
Definition address_line (part : bytes * bytes) (line : bytes) : Prop :=
  exists t, one_line (snd part) t /\ line = b (String "010" "  ") ++ fst part ++ b ": " ++ t.

(** [shows_value k v s]: a field of kind [k] that stores [v] is to be shown as
    [s].  Dates are stored as text or as a number; month/year as YYYYMM. *)
Inductive shows_value : bytes -> json -> bytes -> Prop :=
| shows_text k s :
    ~ In (to_lower U k) [b "address"; b "date"; b "monthyear"] ->
    shows_value k (JStr s) s
| shows_date k s u y m d :
    to_lower U k = b "date" -> numeral s u ->
    (min_int64 <= u <= max_int64)%Z -> civil_range (u + tz u) ->
    local_date u y m d -> (0 <= y <= 9999)%Z ->
    shows_value k (JStr s) (date_text y m d)
| shows_date_number k u y m d :
    to_lower U k = b "date" ->
    (-1000000 < u < 1000000)%Z -> civil_range (u + tz u) ->
    local_date u y m d -> (0 <= y <= 9999)%Z ->
    shows_value k (JNum (f64_of_Z u)) (date_text y m d)
| shows_month k y m :
    to_lower U k = b "monthyear" -> (1000 <= y <= 9999)%Z -> (1 <= m <= 12)%Z ->
    shows_value k (JNum (f64_of_Z (100 * y + m))) (four_digits y ++ b "-" ++ two_digits m)
| shows_month_text k y m :
    to_lower U k = b "monthyear" -> (1000 <= y <= 9999)%Z -> (1 <= m <= 12)%Z ->
    shows_value k (JStr (four_digits y ++ two_digits m)) (four_digits y ++ b "-" ++ two_digits m)
| shows_address k parts order lines :
    to_lower U k = b "address" ->
    NoDup (map fst parts) ->
    Permutation order parts ->
    StronglySorted (fun x y => bytes_ltb (fst x) (fst y) = true) order ->
    Forall2 address_line order lines ->
    shows_value k (JObj (map (fun kv => (fst kv, JStr (snd kv))) parts)) (concat lines).

(** A field of a section: shown iff it has a value, under its capitalised title. *)
Inductive shows_field : json -> list item_field -> Prop :=
| shows_field_none m : absent (b "v") m -> shows_field (JObj m) []
| shows_field_some m k t v s :
    has_str (b "k") m k -> has_str (b "t") m t ->
    mget (b "v") m = Some v -> shows_value k v s ->
    shows_field (JObj m) [MkField (title U t) s].

(** A field of a web form: shown iff name and value are there and not empty. *)
Inductive shows_form : json -> list item_field -> Prop :=
| shows_form_absent m : absent (b "name") m \/ absent (b "value") m -> shows_form (JObj m) []
| shows_form_empty m n v :
    has_str (b "name") m n -> has_str (b "value") m v -> n = [] \/ v = [] ->
    shows_form (JObj m) []
| shows_form_some m n v :
    has_str (b "name") m n -> has_str (b "value") m v -> n <> [] -> v <> [] ->
    shows_form (JObj m) [MkField (title U n) v].

(** A list whose members each show zero or more things, in order. *)
Inductive shows_list {A B} (R : A -> list B -> Prop) : list A -> list B -> Prop :=
| shows_nil : shows_list R [] []
| shows_cons x l ys zs : R x ys -> shows_list R l zs -> shows_list R (x :: l) (ys ++ zs).

Inductive shows_title : gmap json -> bytes -> Prop :=
| shows_title_none m : absent (b "title") m -> shows_title m []
| shows_title_some m t : has_str (b "title") m t -> shows_title m (title U t).

Inductive shows_fields : gmap json -> list item_field -> Prop :=
| shows_fields_none m : absent (b "fields") m -> shows_fields m []
| shows_fields_some m l fs :
    mget (b "fields") m = Some (JArr l) -> shows_list shows_field l fs -> shows_fields m fs.

(** A section: shown iff it has a title or a field to show. *)
Inductive shows_section : json -> list item_section -> Prop :=
| shows_section_none m :
    shows_title m [] -> shows_fields m [] -> shows_section (JObj m) []
| shows_section_some m t fs :
    shows_title m t -> shows_fields m fs -> t <> [] \/ fs <> [] ->
    shows_section (JObj m) [MkSection t fs].

(** The sections shown for a details document. *)
Inductive shows_body : gmap json -> list item_section -> Prop :=
| shows_body_sections m l ss :
    mget (b "sections") m = Some (JArr l) -> shows_list shows_section l ss -> shows_body m ss
| shows_body_form m l fs :
    absent (b "sections") m -> mget (b "fields") m = Some (JArr l) ->
    shows_list shows_form l fs ->
    shows_body m (match fs with [] => [] | _ => [MkSection [] fs] end)
| shows_body_none m : absent (b "sections") m -> absent (b "fields") m -> shows_body m [].

(** An optional text. *)
Definition text_of (k : bytes) (m : gmap json) (s : bytes) : Prop :=
  (absent k m /\ s = []) \/ has_str k m s.

End Shows.
