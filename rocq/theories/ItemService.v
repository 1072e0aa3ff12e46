(** /repo/1pass-core/core/service/itemservice.go. *)
From Verif Require Import Base Utf8 GoStrings Base64 Float64 Json Crypto Path Fs Domain
  KeyService Repos.
Open Scope res_scope.

Section ItemService.
Variable C : crypto.
Variable U : unicode.
Variable tz : Z -> Z.

Fixpoint somes {A} (l : list (option A)) : list A :=
  match l with
  | [] => []
  | Some x :: l' => x :: somes l'
  | None :: l' => somes l'
  end.

(** itemservice.go:42-43,121-122: the error of DecodeOpdata and of Unmarshal is
    ignored; on error the plaintext is nil, which is not valid JSON. *)
Definition decoded_map (r : eres bytes) : option (gmap json) :=
  fst (unmarshal_map (match r with Val plain => plain | Err _ => [] end)).

(** itemservice.go:118-125 *)
Definition decode_overview (raw : raw_item) (ks : keys) : res (option (gmap json)) :=
  let data := fst (b64_decode (r_overview raw)) in
  r <- decode_opdata C data (k_overview ks) (k_overview_mac ks) ;;
  Ok (decoded_map (fst r)).

(** itemservice.go:38-46 *)
Definition decode_details (raw : raw_item) (ks : keys) : res (option (gmap json)) :=
  let data := fst (b64_decode (r_details raw)) in
  ikm <- item_keys C raw ks ;;
  r <- decode_opdata C data (fst ikm) (snd ikm) ;;
  Ok (decoded_map (fst r)).

(** itemservice.go:155-163 *)
Definition parse_form_field (data : gmap json) : res (option item_field) :=
  let v := jget (b "value") (Some data) in
  let n := jget (b "name") (Some data) in
  if negb (jnil v) && negb (jnil n) then
    value <- as_str v ;;
    name <- as_str n ;;
    Ok (if negb (is_nil value) && negb (is_nil name)
        then Some (MkField (title U name) value) else None)
  else Ok None.

(** itemservice.go:164-180 *)
Definition parse_section_field (data : gmap json) : res (option item_field) :=
  let v := jget (b "v") (Some data) in
  if jnil v then Ok None
  else
    k <- as_str (jget (b "k") (Some data)) ;;
    value <-
      match dt_from_name U k with
      | Err _ => as_str v
      | Val DAddress => m <- as_obj v ;; parse_value tz DAddress [] m
      | Val d => parse_value tz d (jsprint v) []
      end ;;
    t <- as_str (jget (b "t") (Some data)) ;;
    Ok (Some (MkField (title U t) value)).

(** itemservice.go:151-183 *)
Definition parse_item_field (from_section : bool) (data : gmap json) : res (option item_field) :=
  if from_section then parse_section_field data else parse_form_field data.

(** The loops of itemservice.go:65-71 and 192-198. *)
Definition parse_fields (from_section : bool) (fields : list json) : res (list item_field) :=
  fs <- rmap (fun f => m <- as_obj f ;; parse_item_field from_section m) fields ;;
  Ok (somes fs).

(** itemservice.go:185-214.  Title is applied twice, lines 206 and 213. *)
Definition parse_item_section (data : gmap json) : res (option item_section) :=
  let fj := jget (b "fields") (Some data) in
  flds <- (if jnil fj then Ok [] else l <- as_arr fj ;; parse_fields true l) ;;
  let tj := jget (b "title") (Some data) in
  t <- (if jnil tj then Ok [] else s <- as_str tj ;; Ok (title U s)) ;;
  Ok (if is_nil flds && is_nil t then None else Some (MkSection (title U t) flds)).

(** itemservice.go:58-88 *)
Definition parse_sections (details : option (gmap json)) : res (list item_section) :=
  let sj := jget (b "sections") details in
  if jnil sj then
    let fj := jget (b "fields") details in
    if jnil fj then Ok []
    else
      l <- as_arr fj ;;
      flds <- parse_fields false l ;;
      Ok (if is_nil flds then [] else [MkSection [] flds])
  else
    l <- as_arr sj ;;
    ss <- rmap (fun s => m <- as_obj s ;; parse_item_section m) l ;;
    Ok (somes ss).

Definition opt_string (j : json) : res bytes := if jnil j then Ok [] else as_str j.

(** itemservice.go:53-112, one entry; an unknown category is skipped before
    anything is decrypted. *)
Definition decode_item (reg : list category) (ks : keys) (raw : raw_item) : res (option item) :=
  match cat_from_code reg (r_cat raw) with
  | Err _ => Ok None
  | Val cat =>
      overview <- decode_overview raw ks ;;
      details <- decode_details raw ks ;;
      sections <- parse_sections details ;;
      t <- opt_string (jget (b "title") overview) ;;
      url <- opt_string (jget (b "url") overview) ;;
      notes <- opt_string (jget (b "notesPlain") details) ;;
      Ok (Some (MkItem cat (r_created raw) notes t (r_trashed raw) sections (r_uid raw) url
                       (r_updated raw)))
  end.

(** itemservice.go:48-116 up to the call of StoreItems. *)
Definition decode_items (O : oracles) (D : disk) (reg : list category) (vault : bytes) (ks : keys)
  : res (list item) :=
  raws <- load_items O D vault ;;
  l <- rmap (decode_item reg ks) raws ;;
  Ok (somes l).

(** itemservice.go:136 *)
Definition simple_of (i : item) : simple_item :=
  MkSimple (it_cat i) (it_title i) (it_trashed i) (it_uid i).

(** itemservice.go:131-149 *)
Definition get_simple_items (O : oracles) (cat : option category) (t : bytes) (trashed : bool)
  (items : option (list item)) : list simple_item :=
  o_sort O (map simple_of (find_by U cat t trashed items)).

End ItemService.
