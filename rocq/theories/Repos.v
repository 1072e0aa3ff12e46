(** /repo/1pass-parse/repo/file: item and profile repositories (the
    configuration repository is in Config.v). *)
From Verif Require Import Base Utf8 GoStrings Float64 Json Path Fs Domain.
Open Scope res_scope.

(** Choices the Go runtime makes: the order in which a map is iterated and how
    sort.Slice places equal elements. *)
Record oracles := {
  o_iter : list (bytes * json) -> list (bytes * json);
  o_sort : list simple_item -> list simple_item;
}.

(** itemservice.go:140-146 *)
Definition simple_lt (x y : simple_item) : bool :=
  if bytes_eqb (cat_code (s_cat x)) (cat_code (s_cat y))
  then bytes_ltb (s_title x) (s_title y)
  else bytes_ltb (cat_code (s_cat x)) (cat_code (s_cat y)).

(** What Go promises: a map iteration visits every entry once; sort.Slice
    returns a permutation in which no element is less than one before it. *)
Record oracles_ok (O : oracles) : Prop := {
  iter_perm : forall l, Permutation (o_iter O l) l;
  sort_perm : forall l, Permutation (o_sort O l) l;
  sort_sorted : forall l, StronglySorted (fun x y => simple_lt y x = false) (o_sort O l);
}.

(** profilerepo.go:42,48: the path of the profile. *)
Definition profile_path (vault : bytes) : bytes := join_path [vault; profile_dir; profile_file].

(** profilerepo.go:40-52.  An already loaded profile is kept.  The slice
    file[12:len-1] panics if the file has fewer than 13 bytes.  A profile that
    is the JSON null stays nil. *)
Definition load_profile (D : disk) (vault : bytes) (profile : option (gmap json))
  : res (option (gmap json)) :=
  match profile with
  | Some p => Ok (Some p)
  | None =>
      match read_file D (profile_path vault) with
      | None => fatal
      | Some file =>
          let n := length file in
          if n <? 13 then Panic
          else
            match unmarshal_map (firstn (n - 1 - 12) (skipn 12 file)) with
            | (m, true) => Ok m
            | (_, false) => fatal
            end
      end
  end.

(** itemrepo.go:115-128: one entry of the band map. *)
Definition raw_of_entry (kv : bytes * json) : res raw_item :=
  v <- as_obj (snd kv) ;;
  let get k := jget k (Some v) in
  created <- as_num (get (b "created")) ;;
  updated <- as_num (get (b "updated")) ;;
  trashed <- (if jnil (get (b "trashed")) then Ok false else as_bool (get (b "trashed"))) ;;
  cat <- as_str (get (b "category")) ;;
  d <- as_str (get (b "d")) ;;
  h <- as_str (get (b "hmac")) ;;
  k <- as_str (get (b "k")) ;;
  o <- as_str (get (b "o")) ;;
  Ok (MkRaw cat (f64_to_int64 created) d h k o trashed (fst kv) (f64_to_int64 updated)).

(** itemrepo.go:99-107: file[4:len-3] of every band, each followed by a comma.
    The slice panics if the file has fewer than 7 bytes. *)
Fixpoint read_bands (D : disk) (files : list bytes) : res bytes :=
  match files with
  | [] => Ok []
  | f :: files' =>
      match read_file D f with
      | None => fatal
      | Some file =>
          let n := length file in
          if n <? 7 then Panic
          else
            rest <- read_bands D files' ;;
            Ok (firstn (n - 3 - 4) (skipn 4 file) ++ ","%char :: rest)
      end
  end.

(** itemrepo.go:90 *)
Definition bands_glob (vault : bytes) : bytes := join_path [vault; profile_dir; band_pattern].

(** itemrepo.go:87-132 *)
Definition load_items (O : oracles) (D : disk) (vault : bytes) : res (list raw_item) :=
  match glob D (bands_glob vault) with
  | None => fatal
  | Some [] => Ok []
  | Some files =>
      text <- read_bands D files ;;
      let doc := removelast ("{"%char :: text) ++ b "}" in
      match unmarshal_map doc with
      | (_, false) => fatal
      | (None, true) => Ok []
      | (Some m, true) => rmap raw_of_entry (o_iter O m)
      end
  end.

(** itemrepo.go:25-41.  [items] is [None] when nil. *)
Definition items_list (items : option (list item)) : list item :=
  match items with Some l => l | None => [] end.

Definition cat_matches (cat : option category) (i : item) : bool :=
  match cat with None => true | Some c => cat_eqb (it_cat i) c end.

Definition count_by (cat : option category) (trashed : bool) (items : option (list item)) : nat :=
  length (filter (fun i => cat_matches cat i && Bool.eqb (it_trashed i) trashed)
                 (items_list items)).

(** itemrepo.go:43-72 *)
Definition find_by (U : unicode) (cat : option category) (title : bytes) (trashed : bool)
  (items : option (list item)) : list item :=
  let t := to_lower U title in
  filter (fun i =>
    (match t with [] => true | _ => contains (to_lower U (it_title i)) t end)
    && cat_matches cat i && Bool.eqb (it_trashed i) trashed) (items_list items).

(** itemrepo.go:74-85 *)
Definition find_first (uid : bytes) (trashed : bool) (items : option (list item)) : option item :=
  find (fun i => bytes_eqb (it_uid i) uid && Bool.eqb (it_trashed i) trashed) (items_list items).

(** itemrepo.go:134-138 *)
Definition remove_items (items : option (list item)) : option (list item) := None.

(** itemrepo.go:140-144 *)
Definition store_items (l : list item) (items : option (list item)) : option (list item) :=
  match items with None => Some l | Some old => Some old end.
