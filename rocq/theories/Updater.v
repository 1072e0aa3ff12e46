(** Looking for and installing updates: 1pass-up/component/github/updater.go,
    1pass-core/core/service/updateservice.go, .../facade/updatefacade.go. *)
From Verif Require Import Base Utf8 GoStrings Float64 Json Crypto Path Fs Domain World Config.
Open Scope st_scope.

(** An error of the operating system, the network or a decoder; its text is not
    modelled. *)
Definition io_error : goerr := ErrOther (b "i/o error").

(** One entry of a tar archive: header name, whether it is a regular file, its data,
    and whether the data can be read to the end. *)
Record entry := MkEntry {
  e_name : bytes;
  e_regular : bool;
  e_data : bytes;
  e_whole : bool;
}.

(** compress/gzip and archive/tar (not part of /repo): None if it is no gzip stream;
    else the entries and whether the archive ends properly. *)
Definition unpacker := bytes -> option (list entry * bool).

(** updater.go:87-95 *)
Fixpoint asset_urls (assets : list json) (archive checksum : bytes) : res (bytes * bytes) :=
  match assets with
  | [] => Ok (archive, checksum)
  | a :: assets' =>
      rbind (as_obj a) (fun m =>
      rbind (as_str (jget (b "name") (Some m))) (fun name =>
      if contains name (b ".tar.gz") then
        rbind (as_str (jget (b "browser_download_url") (Some m))) (fun u =>
        asset_urls assets' u checksum)
      else if contains name (b ".md5") then
        rbind (as_str (jget (b "browser_download_url") (Some m))) (fun u =>
        asset_urls assets' archive u)
      else asset_urls assets' archive checksum))
  end.

(** updater.go:97-102: the number a version is compared by. *)
Definition version_number (v : bytes) : Z := fst (parse_int (replace_byte "." [] v)).

(** updater.go:65-104: what a body means; None is nil. *)
Definition read_releases (body : bytes) : res (eres (option update_info)) :=
  match unmarshal body with
  | (Some JNull, true) => Ok (Val None)
  | (Some (JArr l), true) =>
      match l with
      | [] => Panic
      | JNull :: _ => Ok (Val None)
      | latest :: _ =>
          rbind (as_obj latest) (fun m =>
          rbind (as_str (jget (b "body") (Some m))) (fun changelog =>
          rbind (as_str (jget (b "tag_name") (Some m))) (fun version =>
          rbind (as_arr (jget (b "assets") (Some m))) (fun assets =>
          rbind (asset_urls assets [] []) (fun urls =>
          Ok (Val (Some (MkInfo (fst urls) changelog (snd urls)
                (version_number app_version <? version_number version)%Z version))))))))
      end
  | _ => Ok (Err io_error)
  end.

(** updater.go:50-105.  The dial timeout is part of what [http_get] answers. *)
Definition fetch_info : io (eres (option update_info)) :=
  r <- http_get github_releases ;;
  match r with
  | NetErr | NetBody _ false => ret (Err io_error)
  | NetBody body true => lift (read_releases body)
  end.

(** updater.go:107-116.  Errors are ignored. *)
Definition check_timestamp (dir : bytes) : io unit :=
  t <- now ;;
  d <- io_stat dir ;;
  (match d with None => mkdir_all dir | Some _ => ret true end) ;;;
  write_file (join_path [dir; last_check_file]) (itoa (t / 1000000000)%Z) 420 ;;;
  ret tt.

(** io.Copy into a new file made by os.Create: true on success. *)
Definition save_stream (path data : bytes) (whole : bool) : io bool :=
  o <- open_trunc path 438 ;;
  match o with
  | None => ret false
  | Some l => ok <- write_bytes l data ;; ret (ok && whole)
  end.

(** updater.go:118-142: true on success. *)
Definition download (dst url : bytes) : io bool :=
  r <- http_get url ;;
  match r with
  | NetErr => ret false
  | NetBody body complete => save_stream dst body complete
  end.

(** updater.go:160-186 *)
Fixpoint extract_entries (dst : bytes) (es : list entry) (proper : bool) : io bool :=
  match es with
  | [] => ret proper
  | e :: es' =>
      if e_regular e then
        ok <- save_stream (join_path [dst; e_name e]) (e_data e) (e_whole e) ;;
        if ok then extract_entries dst es' proper else ret false
      else extract_entries dst es' proper
  end.

(** updater.go:144-187: true on success.  (The archive is read as it was when opened,
    even if an entry overwrites it.) *)
Definition extract (T : unpacker) (src dst : bytes) : io bool :=
  c <- io_read src ;;
  match c with
  | None => ret false
  | Some s =>
      match T s with
      | None => ret false
      | Some (es, proper) => extract_entries dst es proper
      end
  end.

(** updater.go:189-201: true on success. *)
Definition replace_binary (src : bytes) : io bool :=
  e <- executable ;;
  match e with
  | None => ret false
  | Some dst => rename src dst
  end.

(** time.Time.Sub: the difference in nanoseconds, limited to what a Duration holds. *)
Definition duration (d : Z) : Z := Z.max min_int64 (Z.min max_int64 d).

Definition f64_or_zero (x : option f64) : f64 :=
  match x with Some f => f | None => f64_zero false end.

(** updater.go:225, math.Abs(d.Hours() / 24) in float64 arithmetic: Duration.Hours is
    float64(d / Hour) + float64(d % Hour) / 3.6e12.  Every operation is symmetric in
    the sign of [d]; none overflows. *)
Definition days_between (d : Z) : f64 :=
  let n := Z.to_N (Z.abs d) in
  let h := (n / 3600000000000)%N in
  let frac := f64_or_zero (round_f64 false (n mod 3600000000000) 3600000000000) in
  let hours := f64_or_zero (round_f64 false (h * f_den frac + f_num frac) (f_den frac)) in
  f64_or_zero (round_f64 false (f_num hours) (f_den hours * 24)).

(** updater.go:203-232.  A value is taken even from a text that is out of range.  Simplified:
    time.Unix and Sub are exact for every saved number of seconds; in Go they wrap around near
    the ends of int64.  C59_clock_arithmetic shows that this never changes the answer. *)
Definition should_check (period : Z) (dir : bytes) : io bool :=
  let file := join_path [dir; last_check_file] in
  s <- io_stat file ;;
  c <- io_read file ;;
  let (saved, fine) := parse_int (trim_space (match c with Some x => x | None => [] end)) in
  t <- now ;;
  let days := f64_to_int64 (days_between (duration (t - saved * 1000000000))) in
  ret ((match s with None => true | Some _ => false end)
       || (match c with None => true | Some _ => false end)
       || negb fine || (period <=? days)%Z).

(** updater.go:234-263: None is success. *)
Definition validate_checksum (C : crypto) (binary file : bytes) : io (option goerr) :=
  c <- io_read file ;;
  match c with
  | None => ret (Some io_error)
  | Some text =>
      x <- io_read binary ;;
      match x with
      | None => ret (Some io_error)
      | Some data =>
          match fields (trim_space text) with
          | [] => lift Panic
          | w :: _ =>
              ret (if bytes_eqb w (hex_encode (md5 C data)) then None else Some ErrInvalidMd5)
          end
      end
  end.

(** updateservice.go:25-49 *)
Definition check_for_update (period : Z) (force : bool) (dir : bytes) : io (eres update_info) :=
  should <- (if force then ret true else should_check period dir) ;;
  if negb should then ret (Err ErrNoUpdate)
  else
    r <- fetch_info ;;
    match r with
    | Err e => ret (Err e)
    | Val None => check_timestamp dir ;;; ret (Err ErrNoUpdate)
    | Val (Some info) =>
        check_timestamp dir ;;;
        ret (if ui_newer info then Val info else Err ErrNoUpdate)
    end.

(** The callback [stage] prints a text for each stage. *)
Definition announce (stage : nat -> bytes) (n : nat) : io unit := fun w =>
  (add_event (EOut (stage n)) (add_event (EStage n) w), Ok tt).

(** [if err := ...; err != nil { return err }] *)
Definition try_step (m : io bool) (k : io (option goerr)) : io (option goerr) :=
  ok <- m ;; if ok then k else ret (Some io_error).

(** updateservice.go:51-117: None is success. *)
Definition update (C : crypto) (T : unpacker) (stage : nat -> bytes) : io (option goerr) :=
  r <- fetch_info ;;
  match r with
  | Err e => ret (Some e)
  | Val None => ret (Some ErrNoUpdate)
  | Val (Some info) =>
      if negb (ui_newer info) then ret (Some ErrNoUpdate)
      else
        announce stage 1 ;;;
        try_step (remove_all cache_dir) (
        try_step (mkdir_all cache_dir) (
        let archive := join_path [cache_dir; archive_name] in
        let checksum := join_path [cache_dir; checksum_name] in
        announce stage 2 ;;;
        try_step (download archive (ui_archive info)) (
        announce stage 3 ;;;
        try_step (download checksum (ui_checksum info)) (
        announce stage 4 ;;;
        try_step (extract T archive cache_dir) (
        let binary := join_path [cache_dir; app_name] in
        announce stage 5 ;;;
        v <- validate_checksum C binary checksum ;;
        match v with
        | Some e => ret (Some e)
        | None =>
            announce stage 6 ;;;
            try_step (replace_binary binary) (
            announce stage 7 ;;;
            try_step (remove_all cache_dir) (
            ret None))
        end)))))
  end.

(** updatefacade.go:26-30 *)
Definition facade_check (m : cmap) (force : bool) (dir : bytes) : io (eres update_info) :=
  c <- lift (get_config m) ;;
  check_for_update (cfg_period c) force dir.

(** updatefacade.go:32-36 *)
Definition facade_update (C : crypto) (T : unpacker) (stage : nat -> bytes) (m : cmap) : io (option goerr) :=
  c <- lift (get_config m) ;;
  update C T stage.
