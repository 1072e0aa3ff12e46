(** The vault facade with the state it reaches: /repo/1pass-core/core/facade/
    vaultfacade.go, vaultservice.go, and the category list shared by everybody. *)
From Verif Require Import Base Utf8 GoStrings Base64 Float64 Json Crypto Path Fs Domain
  KeyService Repos ItemService.
Open Scope res_scope.

(** The loaded profile (profilerepo.go:17), the stored items (itemrepo.go:18),
    the keys (vaultfacade.go:17) and the shared category list
    (itemcategory.go:42-45), whose order changes when it is listed. *)
Record state := MkState {
  st_profile : option (gmap json);
  st_items : option (list item);
  st_keys : option keys;
  st_reg : list category;
}.

(** cobra.go and main.go create one facade per process. *)
Definition init : state := MkState None None None registry.

Fixpoint insert_cat (c : category) (l : list category) : list category :=
  match l with
  | [] => [c]
  | d :: l' => if bytes_ltb (cat_code d) (cat_code c) then d :: insert_cat c l' else c :: l
  end.

(** sort.Slice by code on the shared slice (clicontrol.go:118-120,
    1passwidget.go:223-225).  The codes differ, so the result does not depend on
    the algorithm. *)
Definition sort_cats (l : list category) : list category := fold_right insert_cat [] l.

Section Session.
Variable C : crypto.
Variable U : unicode.
Variable tz : Z -> Z.

(** vaultservice.go:29-63 with profilerepo.go:40-52. *)
Definition validate (D : disk) (vault : bytes) (s : state) : res (state * option goerr) :=
  match stat D vault with
  | None => Ok (s, Some (ErrInvalidVault (vault ++ b " is not a valid path")))
  | Some (NFile _ _) => Ok (s, Some (ErrInvalidVault (vault ++ b " is not a directory")))
  | Some NDir =>
      match stat D (profile_path vault) with
      | None => Ok (s, Some (ErrInvalidVault (profile_path vault ++ b " do not exist")))
      | Some NDir => Ok (s, Some (ErrInvalidVault (profile_path vault ++ b " is not a file")))
      | Some (NFile _ _) =>
          p <- load_profile D vault (st_profile s) ;;
          Ok (MkState p (st_items s) (st_keys s) (st_reg s), None)
      end
  end.

(** vaultfacade.go:58-76: the keys, or invalid password. *)
Definition unlock_keys (profile : option (gmap json)) (password : bytes) : res (option keys) :=
  d <- derived_keys C profile password ;;
  match d with
  | Err _ => Ok None
  | Val (dk, dm) =>
      m <- master_keys C profile dk dm ;;
      match m with
      | Err _ => Ok None
      | Val (mk, mm) =>
          o <- overview_keys C profile dk dm ;;
          match o with
          | Err _ => Ok None
          | Val (ok, om) => Ok (Some (MkKeys dk dm mk mm ok om))
          end
      end
  end.

(** vaultfacade.go:57-80 *)
Definition unlock (O : oracles) (D : disk) (vault password : bytes) (s : state)
  : res (state * option goerr) :=
  mk <- unlock_keys (st_profile s) password ;;
  match mk with
  | None => Ok (s, Some ErrInvalidPass)
  | Some ks =>
      items <- decode_items C U tz O D (st_reg s) vault ks ;;
      Ok (MkState (st_profile s) (store_items items (st_items s)) (Some ks) (st_reg s), None)
  end.

(** vaultfacade.go:52-55 *)
Definition lock (s : state) : state :=
  MkState (st_profile s) (remove_items (st_items s)) None (st_reg s).

(** vaultfacade.go:42-50 *)
Definition is_unlocked (s : state) : bool :=
  match st_keys s with Some _ => true | None => false end.

(** vaultfacade.go:30-40 *)
Definition count_items (cat : option category) (trashed : bool) (s : state) : nat :=
  count_by cat trashed (st_items s).
Definition get_item (uid : bytes) (trashed : bool) (s : state) : option item :=
  find_first uid trashed (st_items s).
Definition get_items (O : oracles) (cat : option category) (t : bytes) (trashed : bool) (s : state)
  : list simple_item :=
  get_simple_items U O cat t trashed (st_items s).

(** The operations of the facade, and listing the categories. *)
Inductive op :=
| OpValidate (vault : bytes)
| OpUnlock (vault password : bytes)
| OpLock
| OpIsUnlocked
| OpCount (cat : option category) (trashed : bool)
| OpGetItem (uid : bytes) (trashed : bool)
| OpGetItems (cat : option category) (t : bytes) (trashed : bool)
| OpCategories.

Inductive reply :=
| RError (e : option goerr)
| RUnit
| RBool (x : bool)
| RCount (n : nat)
| RItem (i : option item)
| RItems (l : list simple_item)
| RCats (l : list category).

Definition step (O : oracles) (D : disk) (o : op) (s : state) : res (state * reply) :=
  match o with
  | OpValidate v => x <- validate D v s ;; Ok (fst x, RError (snd x))
  | OpUnlock v p => x <- unlock O D v p s ;; Ok (fst x, RError (snd x))
  | OpLock => Ok (lock s, RUnit)
  | OpIsUnlocked => Ok (s, RBool (is_unlocked s))
  | OpCount c t => Ok (s, RCount (count_items c t s))
  | OpGetItem u t => Ok (s, RItem (get_item u t s))
  | OpGetItems c x t => Ok (s, RItems (get_items O c x t s))
  | OpCategories =>
      let r := sort_cats (st_reg s) in
      Ok (MkState (st_profile s) (st_items s) (st_keys s) r, RCats r)
  end.

(** One entry of a history: the choices of the runtime, the disk at that time,
    the operation.  The disk may be anything each time. *)
Definition event := (oracles * disk * op)%type.

(** A process that has not died: the state and the replies so far. *)
Fixpoint run (h : list event) (s : state) : res (state * list reply) :=
  match h with
  | [] => Ok (s, [])
  | (Or, D, o) :: h' =>
      x <- step Or D o s ;;
      y <- run h' (fst x) ;;
      Ok (fst y, snd x :: snd y)
  end.

(** The states a process can reach, whatever the runtime chooses within what Go
    promises. *)
Definition honest (h : list event) : Prop := Forall (fun e => oracles_ok (fst (fst e))) h.
Definition reachable (s : state) : Prop := exists h r, honest h /\ run h init = Ok (s, r).

End Session.
