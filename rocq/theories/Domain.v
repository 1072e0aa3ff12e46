(** /repo/1pass-core/core/domain: enumerations and entities. *)
From Verif Require Import Base Utf8 GoStrings Float64 Json Civil.
Open Scope res_scope.

(** itemcategory.go:15-18.  Categories are compared by pointer in the program;
    the registry holds one object per category, so comparing the two fields is
    the same. *)
Record category := Cat { cat_code : bytes; cat_name : bytes }.

Definition cat_eqb (x y : category) : bool :=
  bytes_eqb (cat_code x) (cat_code y) && bytes_eqb (cat_name x) (cat_name y).

(** itemcategory.go:49-92, the initial order of [values]. *)
Definition registry : list category :=
  [ Cat (b "101") (b "Bank Account");
    Cat (b "002") (b "Credit Card");
    Cat (b "102") (b "Database");
    Cat (b "103") (b "Driver License");
    Cat (b "111") (b "Email");
    Cat (b "004") (b "Identity");
    Cat (b "001") (b "Login");
    Cat (b "105") (b "Membership");
    Cat (b "104") (b "Outdoor License");
    Cat (b "106") (b "Passport");
    Cat (b "005") (b "Password");
    Cat (b "107") (b "Rewards");
    Cat (b "109") (b "Router");
    Cat (b "003") (b "Secure Note");
    Cat (b "110") (b "Server");
    Cat (b "100") (b "Software License");
    Cat (b "108") (b "SSN");
    Cat (b "099") (b "Tombstone") ].

(** itemcategory.go:106-121.  [reg] is the current order of [values]. *)
Definition cat_from_code (reg : list category) (code : bytes) : eres category :=
  match find (fun c => bytes_eqb (cat_code c) code) reg with
  | Some c => Val c
  | None => Err ErrUnknownItemCat
  end.

(** itemcategory.go:123-139 *)
Definition cat_from_name (U : unicode) (reg : list category) (name : bytes) : eres category :=
  match find (fun c => bytes_eqb (to_lower U (cat_name c)) (to_lower U name)) reg with
  | Some c => Val c
  | None => Err ErrUnknownItemCat
  end.

(** logicval.go:33-42: [values] is no, yes. *)
Record logicval := LV { lv_name : bytes; lv_value : bool }.
Definition lv_no : logicval := LV (b "n") false.
Definition lv_yes : logicval := LV (b "y") true.
Definition lv_values : list logicval := [lv_no; lv_yes].

(** logicval.go:56-72 *)
Definition lv_from_name (U : unicode) (name : bytes) : eres logicval :=
  match find (fun v => bytes_eqb (to_lower U (lv_name v)) (to_lower U name)) lv_values with
  | Some v => Val v
  | None => Err ErrUnknownLogicVal
  end.

(** logicval.go:74-84: the last matching value. *)
Definition lv_from_value (value : bool) : option logicval :=
  fold_left (fun lv v => if Bool.eqb value (lv_value v) then Some v else lv) lv_values None.

(** datatype.go:19-45 *)
Inductive datatype := DAddress | DDate | DMonthYear.

Definition dt_name (d : datatype) : bytes :=
  match d with DAddress => b "address" | DDate => b "date" | DMonthYear => b "monthYear" end.

Definition dt_values : list datatype := [DAddress; DDate; DMonthYear].

(** datatype.go:55-71 *)
Definition dt_from_name (U : unicode) (name : bytes) : eres datatype :=
  match find (fun d => bytes_eqb (to_lower U (dt_name d)) (to_lower U name)) dt_values with
  | Some d => Val d
  | None => Err ErrUnknownDataType
  end.

(** One line of an address, datatype.go:86-90. *)
Definition address_line (kv : bytes * json) : res bytes :=
  val <- as_str (snd kv) ;;
  Ok (b (String "010" "  ") ++ fst kv ++ b ": " ++ replace_byte "010"%char (b " ") (trim_space val)).

(** datatype.go:73-94.  The keys of the map are collected and sorted. *)
Definition parse_address (m : gmap json) : res bytes :=
  lines <- rmap address_line (sort_map m) ;;
  Ok (concat lines).

(** datatype.go:96-101; the error of ParseInt is ignored. *)
Definition parse_date (tz : Z -> Z) (value : bytes) : bytes :=
  format_date tz (fst (parse_int value)).

(** datatype.go:103-111; indices are bytes. *)
Definition parse_month_year (value : bytes) : bytes :=
  if 4 <? length value then firstn 4 value ++ b "-" ++ skipn 4 value else value.

(** datatype.go:113-126 *)
Definition parse_value (tz : Z -> Z) (d : datatype) (value : bytes) (jv : gmap json) : res bytes :=
  match d with
  | DAddress => parse_address jv
  | DDate => Ok (parse_date tz value)
  | DMonthYear => Ok (parse_month_year value)
  end.

(** static.go:8-18 *)
Definition app_name : bytes := b "1pass".
Definition archive_name : bytes := b "1pass.tar.gz".
Definition band_pattern : bytes := b "band_*.js".
Definition cache_dir : bytes := b "/tmp/1pass".
Definition checksum_name : bytes := b "checksum.md5".
Definition config_file : bytes := b "1pass.yml".
Definition github_releases : bytes := b "https://api.github.com/repos/mashmb/1pass/releases".
Definition last_check_file : bytes := b "lastcheck".
Definition profile_dir : bytes := b "default".
Definition profile_file : bytes := b "profile.js".
Definition app_version : bytes := b "1.3.1".

(** entity.go:7-72 *)
Record config := MkConfig {
  cfg_timeout : Z; cfg_notify : bool; cfg_period : Z; cfg_vault : bytes }.

Record item_field := MkField { fld_name : bytes; fld_value : bytes }.

(** [Fields] may be nil; nil and empty are told apart nowhere. *)
Record item_section := MkSection { sec_title : bytes; sec_fields : list item_field }.

(** [Sections] is nil or non-empty (itemservice.go:106-108). *)
Record item := MkItem {
  it_cat : category; it_created : Z; it_notes : bytes; it_title : bytes;
  it_trashed : bool; it_sections : list item_section; it_uid : bytes;
  it_url : bytes; it_updated : Z }.

Record keys := MkKeys {
  k_derived : bytes; k_derived_mac : bytes; k_master : bytes; k_master_mac : bytes;
  k_overview : bytes; k_overview_mac : bytes }.

Record raw_item := MkRaw {
  r_cat : bytes; r_created : Z; r_details : bytes; r_hmac : bytes; r_keys : bytes;
  r_overview : bytes; r_trashed : bool; r_uid : bytes; r_updated : Z }.

Record simple_item := MkSimple {
  s_cat : category; s_title : bytes; s_trashed : bool; s_uid : bytes }.

Record update_info := MkInfo {
  ui_archive : bytes; ui_changelog : bytes; ui_checksum : bytes; ui_newer : bool;
  ui_version : bytes }.
