(** The settings file: 1pass-parse/repo/file/configrepo.go, with
    1pass-core/core/service/configservice.go and .../facade/configfacade.go, which only
    pass calls on. *)
From Verif Require Import Base Utf8 GoStrings Path Fs Domain World.

(** A value of the map yaml.v2 decodes into.  [YOther] is any value that is neither a
    string nor an int nor a bool: what it is, and how fmt.Sprint shows it. *)
Inductive yval :=
| YNull
| YStr (s : bytes)
| YInt (z : Z)
| YBool (v : bool)
| YOther (what shown : bytes).

(** gopkg.in/yaml.v2 (not part of /repo): Unmarshal into a map, None is an error and
    [Some None] leaves the map nil; Marshal, None is an error. *)
Record yaml := {
  y_parse : bytes -> option (option (gmap yval));
  y_print : gmap yval -> option bytes;
}.

(** What is assumed of it: what was printed is read back, an empty file is no map. *)
Record yaml_ok (Y : yaml) : Prop := {
  y_prints : forall m, exists s, y_print Y m = Some s;
  y_back : forall m s, NoDup (map fst m) -> m <> [] -> y_print Y m = Some s ->
           exists m', y_parse Y s = Some (Some m') /\ NoDup (map fst m') /\
                      forall k, mget k m' = mget k m;
  y_nodup : forall s m, y_parse Y s = Some (Some m) -> NoDup (map fst m);
  y_empty : y_parse Y [] = Some None;
}.

(** The keys, configrepo.go:59-101. *)
Definition k_vault : bytes := b "opvault".
Definition k_timeout : bytes := b "timeout".
Definition k_notify : bytes := b "update-notification".
Definition k_period : bytes := b "update-period".

(** The field [config] of the repository; None is a nil map. *)
Definition cmap := option (gmap yval).

(** Reading a map, nil or not: None is the nil interface. *)
Definition cget (k : bytes) (m : cmap) : option yval :=
  match m with
  | None => None
  | Some m => match mget k m with Some YNull => None | v => v end
  end.

(** configrepo.go:30-50 *)
Definition load_config (Y : yaml) (D : disk) (dir : bytes) : res cmap :=
  let file := join_path [dir; config_file] in
  match stat D file with
  | None => Ok (Some [])
  | Some _ =>
      match read_file D file with
      | None => fatal
      | Some s => match y_parse Y s with None => fatal | Some m => Ok m end
      end
  end.

(** configrepo.go:52-54 *)
Definition is_available (m : cmap) : bool :=
  match m with Some (_ :: _) => true | _ => false end.

(** fmt.Sprint *)
Definition sprint (v : yval) : bytes :=
  match v with
  | YNull => b "<nil>"
  | YStr s => s
  | YInt z => itoa z
  | YBool true => b "true"
  | YBool false => b "false"
  | YOther _ t => t
  end.

(** configrepo.go:56-64 *)
Definition get_vault (m : cmap) : bytes :=
  match cget k_vault m with None => [] | Some v => sprint v end.

(** configrepo.go:66-74 *)
Definition get_timeout (m : cmap) : res Z :=
  match cget k_timeout m with None => Ok 1%Z | Some (YInt z) => Ok z | Some _ => Panic end.

(** configrepo.go:76-84 *)
Definition get_notify (m : cmap) : res bool :=
  match cget k_notify m with None => Ok true | Some (YBool v) => Ok v | Some _ => Panic end.

(** configrepo.go:86-94 *)
Definition get_period (m : cmap) : res Z :=
  match cget k_period m with None => Ok 1%Z | Some (YInt z) => Ok z | Some _ => Panic end.

(** configservice.go:26-33 *)
Definition get_config (m : cmap) : res config :=
  (notification <- get_notify m ;;
   period <- get_period m ;;
   timeout <- get_timeout m ;;
   Ok (MkConfig timeout notification period (get_vault m)))%res.

(** configrepo.go:98-101: assigning to a nil map panics. *)
Definition set_config (c : config) (m : cmap) : res (gmap yval) :=
  match m with
  | None => Panic
  | Some m =>
      Ok (mset k_period (YInt (cfg_period c))
         (mset k_notify (YBool (cfg_notify c))
         (mset k_timeout (YInt (cfg_timeout c))
         (mset k_vault (YStr (cfg_vault c)) m))))
  end.

(** configrepo.go:96-117: the new value of the field [config].  The mode of the new
    directory is not modelled. *)
Definition save_config (Y : yaml) (dir : bytes) (c : config) (m : cmap) : io cmap :=
  (m' <- lift (set_config c m) ;;
   match y_print Y m' with
   | None => lift fatal
   | Some file =>
       d <- io_stat dir ;;
       (match d with None => mkdir_all dir | Some _ => ret true end) ;;;
       ok <- write_file (join_path [dir; config_file]) file 420 ;;
       if ok then fun w => (w, load_config Y (w_disk w) dir) else lift fatal
   end)%st.
