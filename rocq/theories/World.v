(** What a process of the program sees and does: files, network, clock, terminal.
    Operating system and standard library, not part of /repo. *)
From Verif Require Import Base Utf8 GoStrings Path Fs.

(** Code that may end the process: the state at the end and the outcome. *)
Definition st (S A : Type) : Type := S -> S * res A.

Definition ret {S A} (x : A) : st S A := fun s => (s, Ok x).
Definition lift {S A} (x : res A) : st S A := fun s => (s, x).
Definition bind {S A B} (m : st S A) (k : A -> st S B) : st S B := fun s =>
  match m s with
  | (s', Ok x) => k x s'
  | (s', Panic) => (s', Panic)
  | (s', Exit n) => (s', Exit n)
  end.

Declare Scope st_scope.
Delimit Scope st_scope with st.
Notation "x <- e ;; k" := (bind e (fun x => k))
  (at level 61, e at next level, right associativity) : st_scope.
Notation "e ;;; k" := (bind e (fun _ => k))
  (at level 61, right associativity) : st_scope.

(** An answer of http.Client.Get: an error, or a body that may break off.  The
    status code is not looked at by the program. *)
Inductive net_reply :=
| NetErr
| NetBody (body : bytes) (complete : bool).

(** What can be observed of a process. *)
Inductive ev :=
| EOut (text : bytes)    (* written to standard output *)
| EFs (f : fs)           (* the file system after an elementary change *)
| EGet (url : bytes)     (* a request was sent *)
| EAsk                   (* a password was read *)
| EStage (n : nat).      (* a stage of an update was reported *)

(** [w_faults] decides about each elementary change of the file system: None is
    success, [Some n] failure, after [n] bytes if it is a write; when the list
    is used up everything succeeds.  [w_net], [w_clock] (nanoseconds since 1970),
    [w_stdin], [w_pass] are the future answers.  The trace is newest first. *)
Record world := MkWorld {
  w_disk : disk;
  w_umask : N;
  w_exe : option bytes;
  w_faults : list (option nat);
  w_net : list net_reply;
  w_clock : list Z;
  w_stdin : list rune;
  w_pass : list bytes;
  w_trace : list ev;
}.

Definition set_disk d w := MkWorld d (w_umask w) (w_exe w) (w_faults w) (w_net w) (w_clock w) (w_stdin w) (w_pass w) (w_trace w).
Definition set_faults x w := MkWorld (w_disk w) (w_umask w) (w_exe w) x (w_net w) (w_clock w) (w_stdin w) (w_pass w) (w_trace w).
Definition set_net x w := MkWorld (w_disk w) (w_umask w) (w_exe w) (w_faults w) x (w_clock w) (w_stdin w) (w_pass w) (w_trace w).
Definition set_clock x w := MkWorld (w_disk w) (w_umask w) (w_exe w) (w_faults w) (w_net w) x (w_stdin w) (w_pass w) (w_trace w).
Definition set_stdin x w := MkWorld (w_disk w) (w_umask w) (w_exe w) (w_faults w) (w_net w) (w_clock w) x (w_pass w) (w_trace w).
Definition set_pass x w := MkWorld (w_disk w) (w_umask w) (w_exe w) (w_faults w) (w_net w) (w_clock w) (w_stdin w) x (w_trace w).
Definition add_event e w := MkWorld (w_disk w) (w_umask w) (w_exe w) (w_faults w) (w_net w) (w_clock w) (w_stdin w) (w_pass w) (e :: w_trace w).

Definition io (A : Type) : Type := st world A.

Definition w_fs (w : world) : fs := d_fs (w_disk w).

(** An elementary change that has happened. *)
Definition put_fs (f : fs) (w : world) : world :=
  add_event (EFs f) (set_disk (MkDisk f (d_cwd (w_disk w)) (d_unreadable (w_disk w))) w).

(** One elementary change: true if it succeeded. *)
Definition change (g : fs -> fs) : io bool := fun w =>
  match w_faults w with
  | Some _ :: fl => (set_faults fl w, Ok false)
  | None :: fl => (put_fs (g (w_fs w)) (set_faults fl w), Ok true)
  | [] => (put_fs (g (w_fs w)) w, Ok true)
  end.

(** Append to the file at [l], byte by byte, so that every prefix is a state the
    process can die in. *)
Fixpoint append_bytes (l : loc) (data : bytes) (w : world) : world :=
  match data with
  | [] => w
  | c :: data' =>
      let f := w_fs w in
      let w' := match fs_get f l with
                | Some (NFile old m) => put_fs (fs_set l (NFile (old ++ [c]) m) f) w
                | _ => w
                end in
      append_bytes l data' w'
  end.

Definition write_bytes (l : loc) (data : bytes) : io bool := fun w =>
  match w_faults w with
  | Some n :: fl => (append_bytes l (firstn n data) (set_faults fl w), Ok false)
  | None :: fl => (append_bytes l data (set_faults fl w), Ok true)
  | [] => (append_bytes l data w, Ok true)
  end.

(** Where a new file would be created: its directory must exist. *)
Definition resolve_new (D : disk) (path : bytes) : option loc :=
  match resolve D path with
  | Some l => Some l
  | None =>
      let (d, f) := split_path path in
      if bytes_eqb f [] || bytes_eqb f dot || bytes_eqb f dotdot then None
      else
        match (match d with [] => Some (d_cwd D) | _ => resolve D d end) with
        | Some l => if is_dir (d_fs D) l then Some (f :: l) else None
        | None => None
        end
  end.

(** os.OpenFile with O_CREATE and O_TRUNC: None is an error.  An existing file
    keeps its mode. *)
Definition open_trunc (path : bytes) (perm : N) : io (option loc) := fun w =>
  match resolve_new (w_disk w) path with
  | None => (w, Ok None)
  | Some l =>
      match fs_get (w_fs w) l with
      | Some NDir => (w, Ok None)
      | n =>
          let mode := match n with Some (NFile _ m) => m | _ => N.ldiff perm (w_umask w) end in
          bind (change (fs_set l (NFile [] mode)))
               (fun ok => ret (if ok then Some l else None)) w
      end
  end.

(** ioutil.WriteFile: false is an error. *)
Definition write_file (path data : bytes) (perm : N) : io bool :=
  (o <- open_trunc path perm ;;
   match o with
   | None => ret false
   | Some l => write_bytes l data
   end)%st.

(** The directories os.MkdirAll has to make, outermost first; None is an error.  (A
    ".." below a missing directory, which a cleaned path cannot have, is taken as
    an error.) *)
Fixpoint chain (cur : loc) (es : list bytes) : option (list loc) :=
  match es with
  | [] => Some []
  | e :: es' =>
      if bytes_eqb e [] || bytes_eqb e dot then chain cur es'
      else if bytes_eqb e dotdot then None
      else option_map (cons (e :: cur)) (chain (e :: cur) es')
  end.

Fixpoint missing_dirs (f : fs) (cur : loc) (es : list bytes) : option (list loc) :=
  match es with
  | [] => if is_dir f cur then Some [] else None
  | e :: es' =>
      if bytes_eqb e [] || bytes_eqb e dot then missing_dirs f cur es'
      else if bytes_eqb e dotdot then missing_dirs f (tl cur) es'
      else
        match fs_get f (e :: cur) with
        | Some NDir => missing_dirs f (e :: cur) es'
        | Some (NFile _ _) => None
        | None => chain cur es
        end
  end.

(** mkdir never replaces anything. *)
Definition add_dir (l : loc) (f : fs) : fs :=
  match fs_get f l with None => fs_set l NDir f | Some _ => f end.

Fixpoint make_dirs (ls : list loc) : io bool :=
  match ls with
  | [] => ret true
  | l :: ls' => (ok <- change (add_dir l) ;; if ok then make_dirs ls' else ret false)%st
  end.

(** os.MkdirAll: false is an error. *)
Definition mkdir_all (path : bytes) : io bool := fun w =>
  match path with
  | [] => (w, Ok false)
  | _ =>
      match missing_dirs (w_fs w) (if rooted path then [] else d_cwd (w_disk w)) (split_slash path) with
      | None => (w, Ok false)
      | Some ls => make_dirs ls w
      end
  end.

(** [k] is [l] or lies below it. *)
Definition below (l k : loc) : bool := loc_eqb (skipn (length k - length l) k) l.

Fixpoint insert_deep (l : loc) (ls : list loc) : list loc :=
  match ls with
  | [] => [l]
  | k :: ls' => if length l <? length k then k :: insert_deep l ls' else l :: ls
  end.

(** Everything at or below [l], contents before their directory. *)
Definition subtree (f : fs) (l : loc) : list loc :=
  fold_right insert_deep [] (filter (below l) (map fst f)).

Fixpoint unlink_all (ls : list loc) : io bool :=
  match ls with
  | [] => ret true
  | l :: ls' => (ok <- change (fs_del l) ;; if ok then unlink_all ls' else ret false)%st
  end.

(** os.RemoveAll: false is an error.  (After an error it stops; Go goes on with the
    other entries before returning it.) *)
Definition remove_all (path : bytes) : io bool := fun w =>
  match resolve (w_disk w) path with
  | None => (w, Ok true)
  | Some l => unlink_all (subtree (w_fs w) l) w
  end.

(** os.Rename of a file, replacing a file: false is an error.  (Directories are
    never renamed by the program.) *)
Definition rename (src dst : bytes) : io bool := fun w =>
  match resolve (w_disk w) src, resolve_new (w_disk w) dst with
  | Some ls, Some ld =>
      match fs_get (w_fs w) ls, fs_get (w_fs w) ld with
      | Some (NFile c m), Some (NFile _ _) | Some (NFile c m), None =>
          if loc_eqb ls ld then (w, Ok true)
          else change (fun f => fs_set ld (NFile c m) (fs_del ls f)) w
      | _, _ => (w, Ok false)
      end
  | _, _ => (w, Ok false)
  end.

(** os.Stat and ioutil.ReadFile now. *)
Definition io_stat (path : bytes) : io (option node) := fun w => (w, Ok (stat (w_disk w) path)).
Definition io_read (path : bytes) : io (option bytes) := fun w => (w, Ok (read_file (w_disk w) path)).

(** http.Client.Get with a body.  The empty URL fails without a request; an
    unanswered request is an error.  (Other unusable URLs are taken as requests that
    may fail.) *)
Definition http_get (url : bytes) : io net_reply := fun w =>
  match url with
  | [] => (w, Ok NetErr)
  | _ =>
      let w' := add_event (EGet url) w in
      match w_net w with
      | r :: rs => (set_net rs w', Ok r)
      | [] => (w', Ok NetErr)
      end
  end.

(** time.Now(): nanoseconds since 1970. *)
Definition now : io Z := fun w =>
  match w_clock w with
  | t :: ts => (set_clock ts w, Ok t)
  | [] => (w, Ok 0%Z)
  end.

(** os.Executable() *)
Definition executable : io (option bytes) := fun w => (w, Ok (w_exe w)).

(** fmt.Print *)
Definition print (text : bytes) : io unit := fun w => (add_event (EOut text) w, Ok tt).
(** fmt.Println of one string. *)
Definition newline : bytes := ["010"%char].
Definition println (text : bytes) : io unit := print (text ++ newline).

(** fmt.Scanln(&s) with [s] empty before. *)
Definition scan : io bytes := fun w =>
  let (s, rest) := scanln (w_stdin w) in (set_stdin rest w, Ok s).

(** term.ReadPassword; the program ignores its error. *)
Definition ask_password : io bytes := fun w =>
  let w' := add_event EAsk w in
  match w_pass w with
  | p :: ps => (set_pass ps w', Ok p)
  | [] => (w', Ok [])
  end.

(** os.Exit *)
Definition os_exit {S A} (n : nat) : st S A := lift (Exit n).
