(** How a command line may be written: the flags of the manual page in all their spellings,
    independently of how the program reads them. *)
From Verif Require Import Base.

(** Flags that take a text, flags that are on or off, and a flag with its value. *)
Inductive text_flag := FVault | FCategory | FName.
Inductive switch := FTrashed | FHelp.
Inductive setting :=
| Text (f : text_flag) (v : bytes)
| Switch (f : switch) (on : bool).

Definition text_long (f : text_flag) : bytes :=
  match f with FVault => b "vault" | FCategory => b "category" | FName => b "name" end.
Definition text_short (f : text_flag) : bytes :=
  match f with FVault => b "v" | FCategory => b "c" | FName => b "n" end.
Definition switch_long (f : switch) : bytes := match f with FTrashed => b "trashed" | FHelp => b "help" end.
Definition switch_short (f : switch) : bytes := match f with FTrashed => b "t" | FHelp => b "h" end.

(** The ways to say yes and no. *)
Definition says (on : bool) (w : bytes) : Prop :=
  In w (if on then [b "1"; b "t"; b "T"; b "true"; b "TRUE"; b "True"]
        else [b "0"; b "f"; b "F"; b "false"; b "FALSE"; b "False"]).

(** [v] can follow a one-letter flag without a space: it is not empty and not of the form [=x]. *)
Definition can_join (v : bytes) : Prop := v <> [] /\ forall c x, v <> "="%char :: c :: x.

(** One flag in one or two words. *)
Inductive written : setting -> list bytes -> Prop :=
| short_space f v : written (Text f v) [b "-" ++ text_short f; v]                          (* -v PATH *)
| long_space f v : written (Text f v) [b "--" ++ text_long f; v]                           (* --vault PATH *)
| long_equals f v : written (Text f v) [b "--" ++ text_long f ++ b "=" ++ v]               (* --vault=PATH *)
| short_equals f v : v <> [] -> written (Text f v) [b "-" ++ text_short f ++ b "=" ++ v]   (* -v=PATH *)
| short_joined f v : can_join v -> written (Text f v) [b "-" ++ text_short f ++ v]         (* -vPATH *)
| switch_on f : written (Switch f true) [b "-" ++ switch_short f]                          (* -t *)
| switch_on_long f : written (Switch f true) [b "--" ++ switch_long f]                     (* --trashed *)
| switch_equals f x v : says x v ->
    written (Switch f x) [b "-" ++ switch_short f ++ b "=" ++ v]                           (* -t=false *)
| switch_long_equals f x v : says x v ->
    written (Switch f x) [b "--" ++ switch_long f ++ b "=" ++ v].                          (* --trashed=false *)

(** One-letter flags behind one dash ([-tn NAME]); words beginning with [-test.] mean nothing. *)
Inductive group : list setting -> list bytes -> Prop :=
| single s ws : written s ws -> group [s] ws
| together f l r ws : group l ((b "-" ++ r) :: ws) -> r <> [] -> hd_error r <> Some "-"%char ->
    group (Switch f true :: l) ((b "-" ++ switch_short f ++ r) :: ws)
| ignored r : group [] [b "-test." ++ r].

(** A word that is not a flag. *)
Definition argument (x : bytes) : Prop := x = b "-" \/ hd_error x <> Some "-"%char.

(** [line l args ws]: the words [ws] set the flags [l], in this order, and give the arguments [args];
    flags and arguments may be mixed, and everything after [--] is an argument. *)
Inductive line : list setting -> list bytes -> list bytes -> Prop :=
| line_end : line [] [] []
| line_flags l ws l' args rest : group l ws -> line l' args rest -> line (l ++ l') args (ws ++ rest)
| line_argument x l args rest : argument x -> line l args rest -> line l (x :: args) (x :: rest)
| line_dashes args : line [] args (b "--" :: args).

(** The values given to a flag, in order; the last one counts. *)
Definition text_flag_eqb (f g : text_flag) : bool :=
  match f, g with
  | FVault, FVault | FCategory, FCategory | FName, FName => true
  | _, _ => false
  end.
Definition switch_eqb (f g : switch) : bool :=
  match f, g with
  | FTrashed, FTrashed | FHelp, FHelp => true
  | _, _ => false
  end.
Definition texts (f : text_flag) (l : list setting) : list bytes :=
  flat_map (fun s => match s with Text g v => if text_flag_eqb f g then [v] else [] | _ => [] end) l.
Definition switches (f : switch) (l : list setting) : list bool :=
  flat_map (fun s => match s with Switch g v => if switch_eqb f g then [v] else [] | _ => [] end) l.
Definition text_value (f : text_flag) (l : list setting) : bytes := last (texts f l) [].
Definition is_on (f : switch) (l : list setting) : bool := last (switches f l) false.

(** The flags a command has; all have [-h]. *)
Definition flags_list (s : setting) : Prop := True.
Definition flags_item (s : setting) : Prop :=
  match s with Text FVault _ | Switch _ _ => True | _ => False end.
Definition flags_gui (s : setting) : Prop :=
  match s with Text FVault _ | Switch FHelp _ => True | _ => False end.
Definition flags_none (s : setting) : Prop :=
  match s with Switch FHelp _ => True | _ => False end.
