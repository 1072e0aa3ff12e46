(** How long the program waits for servers: updater.go with the HTTP client it makes (updater.go:34-48), and the
    service and facade that hand the timeout of the settings on.  Everything else is taken from the model without
    time (Updater.v); [t_world] is its world, whose own list of replies is not used here. *)
From Verif Require Import Base GoStrings Json Crypto Path Fs Domain World Config Updater GoTime.
Open Scope st_scope.

(** A server, as met by one request.  Time until a connection (with name lookup) is there, None if there never is
    one; time from then until the whole answer was read, None if it never ends; what is read.  In nanoseconds.
    Redirects are followed inside one exchange. *)
Record server := MkServer { sv_connect : option Z; sv_rest : option Z; sv_reply : net_reply }.

Record tworld := MkTimed { t_world : world; t_servers : list server; t_waited : Z }.

(** Something that may never return: None. *)
Definition tio (A : Type) := tworld -> option (tworld * res A).
Definition tbind {A B} (m : tio A) (f : A -> tio B) : tio B := fun t =>
  match m t with
  | Some (t', Ok x) => f x t'
  | Some (t', Panic) => Some (t', Panic)
  | Some (t', Exit n) => Some (t', Exit n)
  | None => None
  end.
Definition untimed {A} (m : io A) : tio A := fun t =>
  let (w, r) := m (t_world t) in Some (MkTimed w (t_servers t) (t_waited t), r).

(** updater.go:37-39: time.Duration(timeout) * time.Second, an int64. *)
Definition dial_limit (timeout : Z) : Z := wrap64 (timeout * 1000000000).

(** net.DialTimeout with that duration: 0 is no limit, a negative one has passed already.  The time it takes, and
    whether there is a connection; None if it never returns. *)
Definition dial (timeout : Z) (connect : option Z) : option (Z * bool) :=
  let limit := dial_limit timeout in
  if (limit <? 0)%Z then Some (0%Z, false)
  else match connect with
       | Some c => if (limit =? 0)%Z || (c <? limit)%Z then Some (c, true) else Some (limit, false)
       | None => if (limit =? 0)%Z then None else Some (limit, false)
       end.

(** httpClient(timeout).Get(url) and reading the body: only connecting is limited (updater.go:34-48). *)
Definition exchange (timeout : Z) (s : server) : option (Z * net_reply) :=
  match dial timeout (sv_connect s) with
  | None => None
  | Some (t, false) => Some (t, NetErr)
  | Some (t, true) => match sv_rest s with Some d => Some ((t + d)%Z, sv_reply s) | None => None end
  end.

(** As World.http_get; a request beyond the listed servers fails at once. *)
Definition timed_get (timeout : Z) (url : bytes) : tio net_reply := fun t =>
  match url with
  | [] => Some (t, Ok NetErr)
  | _ =>
      let w := add_event (EGet url) (t_world t) in
      match t_servers t with
      | [] => Some (MkTimed w [] (t_waited t), Ok NetErr)
      | s :: ss =>
          match exchange timeout s with
          | None => None
          | Some (d, r) => Some (MkTimed w ss (t_waited t + d)%Z, Ok r)
          end
      end
  end.

(** updater.go:50-105 *)
Definition timed_fetch (timeout : Z) : tio (eres (option update_info)) :=
  tbind (timed_get timeout github_releases) (fun r =>
  untimed (match r with
           | NetErr | NetBody _ false => ret (Err io_error)
           | NetBody body true => lift (read_releases body)
           end)).

(** updater.go:118-142 *)
Definition timed_download (dst url : bytes) (timeout : Z) : tio bool :=
  tbind (timed_get timeout url) (fun r =>
  untimed (match r with
           | NetErr => ret false
           | NetBody body complete => save_stream dst body complete
           end)).

(** updateservice.go:25-49 *)
Definition timed_check (period timeout : Z) (force : bool) (dir : bytes) : tio (eres update_info) :=
  tbind (untimed (if force then ret true else should_check period dir)) (fun should =>
  if negb should then untimed (ret (Err ErrNoUpdate))
  else
    tbind (timed_fetch timeout) (fun r =>
    untimed (match r with
             | Err e => ret (Err e)
             | Val None => check_timestamp dir ;;; ret (Err ErrNoUpdate)
             | Val (Some info) => check_timestamp dir ;;; ret (if ui_newer info then Val info else Err ErrNoUpdate)
             end))).

Definition timed_try (m : tio bool) (k : tio (option goerr)) : tio (option goerr) :=
  tbind m (fun ok => if ok then k else untimed (ret (Some io_error))).

(** updateservice.go:51-117 *)
Definition timed_update (C : crypto) (T : unpacker) (stage : nat -> bytes) (timeout : Z) : tio (option goerr) :=
  tbind (timed_fetch timeout) (fun r =>
  match r with
  | Err e => untimed (ret (Some e))
  | Val None => untimed (ret (Some ErrNoUpdate))
  | Val (Some info) =>
      if negb (ui_newer info) then untimed (ret (Some ErrNoUpdate))
      else
        tbind (untimed (announce stage 1)) (fun _ =>
        timed_try (untimed (remove_all cache_dir)) (
        timed_try (untimed (mkdir_all cache_dir)) (
        let archive := join_path [cache_dir; archive_name] in
        let checksum := join_path [cache_dir; checksum_name] in
        tbind (untimed (announce stage 2)) (fun _ =>
        timed_try (timed_download archive (ui_archive info) timeout) (
        tbind (untimed (announce stage 3)) (fun _ =>
        timed_try (timed_download checksum (ui_checksum info) timeout) (
        untimed (
        announce stage 4 ;;;
        try_step (extract T archive cache_dir) (
        let binary := join_path [cache_dir; app_name] in
        announce stage 5 ;;;
        v <- validate_checksum C binary checksum ;;
        match v with
        | Some e => ret (Some e)
        | None =>
            announce stage 6 ;;;
            try_step (replace_binary binary) (
            announce stage 7 ;;;
            try_step (remove_all cache_dir) (
            ret None))
        end)))))))))
  end).

(** updatefacade.go:26-30 *)
Definition timed_facade_check (m : cmap) (force : bool) (dir : bytes) : tio (eres update_info) :=
  tbind (untimed (lift (get_config m))) (fun c => timed_check (cfg_period c) (cfg_timeout c) force dir).

(** updatefacade.go:32-36 *)
Definition timed_facade_update (C : crypto) (T : unpacker) (stage : nat -> bytes) (m : cmap) : tio (option goerr) :=
  tbind (untimed (lift (get_config m))) (fun c => timed_update C T stage (cfg_timeout c)).
