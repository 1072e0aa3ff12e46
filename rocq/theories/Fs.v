(** A Unix file system as the program sees it through os, ioutil and
    path/filepath (not part of /repo).  There are no symbolic or hard links and no
    other processes; permission to read is an oracle, other faults are modelled
    where the calls are made. *)
From Verif Require Import Base Utf8 Path.

Inductive node : Type :=
| NFile (content : bytes) (mode : N)
| NDir.

(** A location: the names from the innermost to the root; [] is the root. *)
Definition loc := list bytes.
Definition fs := list (loc * node).

Fixpoint loc_eqb (x y : loc) : bool :=
  match x, y with
  | [], [] => true
  | c :: x', d :: y' => bytes_eqb c d && loc_eqb x' y'
  | _, _ => false
  end.

Definition fs_get (f : fs) (l : loc) : option node :=
  match l with
  | [] => Some NDir
  | _ => option_map snd (find (fun kv => loc_eqb (fst kv) l) f)
  end.

Definition fs_del (l : loc) (f : fs) : fs := filter (fun kv => negb (loc_eqb (fst kv) l)) f.
Definition fs_set (l : loc) (n : node) (f : fs) : fs := (l, n) :: fs_del l f.

Definition is_dir (f : fs) (l : loc) : bool :=
  match fs_get f l with Some NDir => true | _ => false end.

(** Path resolution by the kernel: every element before the last must be a
    directory and exist. *)
Fixpoint walk (f : fs) (cur : loc) (es : list bytes) : option loc :=
  match es with
  | [] => Some cur
  | e :: es' =>
      if negb (is_dir f cur) then None
      else if bytes_eqb e [] || bytes_eqb e dot then walk f cur es'
      else if bytes_eqb e dotdot then walk f (tl cur) es'
      else
        match fs_get f (e :: cur) with
        | Some _ => walk f (e :: cur) es'
        | None => None
        end
  end.

(** The part of the environment that reading depends on. *)
Record disk := MkDisk {
  d_fs : fs;
  d_cwd : loc;
  d_unreadable : loc -> bool;
}.

Definition resolve (D : disk) (path : bytes) : option loc :=
  match path with
  | [] => None
  | _ => walk (d_fs D) (if rooted path then [] else d_cwd D) (split_slash path)
  end.

(** os.Stat: None is an error. *)
Definition stat (D : disk) (path : bytes) : option node :=
  match resolve D path with
  | Some l => fs_get (d_fs D) l
  | None => None
  end.

(** ioutil.ReadFile: None is an error. *)
Definition read_file (D : disk) (path : bytes) : option bytes :=
  match resolve D path with
  | Some l =>
      match fs_get (d_fs D) l with
      | Some (NFile c _) => if d_unreadable D l then None else Some c
      | _ => None
      end
  | None => None
  end.

Fixpoint insert_bytes (x : bytes) (l : list bytes) : list bytes :=
  match l with
  | [] => [x]
  | y :: l' =>
      if bytes_ltb x y then x :: l
      else if bytes_eqb x y then l
      else y :: insert_bytes x l'
  end.

(** Sorted names of the entries of a directory (Readdirnames, sort.Strings). *)
Definition list_dir (f : fs) (l : loc) : list bytes :=
  fold_right (fun kv acc =>
    match fst kv with
    | name :: parent => if loc_eqb parent l then insert_bytes name acc else acc
    | [] => acc
    end) [] f.

(** ** filepath.Glob *)

(** cleanGlobPath *)
Definition clean_glob_path (d : bytes) : bytes :=
  match d with
  | [] => dot
  | [c] => if is_slash c then d else removelast d
  | _ => removelast d
  end.

(** filepath.glob: names in [dir] matching the pattern [ts]; I/O errors are
    ignored. *)
Definition glob_in (D : disk) (ts : list gtok) (dir : bytes) : list bytes :=
  match resolve D dir with
  | Some l =>
      if is_dir (d_fs D) l && negb (d_unreadable D l) then
        map (fun n => join_path [dir; n]) (filter (match_toks ts) (list_dir (d_fs D) l))
      else []
  | None => []
  end.

(** filepath.Glob; None is ErrBadPattern. *)
Fixpoint glob_fuel (fuel : nat) (D : disk) (pattern : bytes) : option (list bytes) :=
  match fuel with
  | 0 => None
  | S f =>
      match glob_tokens (S (length pattern)) pattern with
      | None => None
      | Some _ =>
          if negb (has_meta pattern) then
            match stat D pattern with Some _ => Some [pattern] | None => Some [] end
          else
            let (d, file) := split_path pattern in
            let dir := clean_glob_path d in
            match glob_tokens (S (length file)) file with
            | None => None
            | Some ts =>
                if negb (has_meta dir) then Some (glob_in D ts dir)
                else if bytes_eqb dir pattern then None
                else
                  match glob_fuel f D dir with
                  | Some ms => Some (flat_map (glob_in D ts) ms)
                  | None => None
                  end
            end
      end
  end.

Definition glob (D : disk) (pattern : bytes) : option (list bytes) :=
  glob_fuel (S (length pattern)) D pattern.
