(** From the command line to the command: 1pass-app/cli/cobra.go and main.go, with the
    parts of github.com/spf13/cobra v1.1.3 (command.go, args.go) and
    github.com/spf13/pflag v1.0.5 (flag.go, bool.go) they call.

    The libraries are not in /repo; they are modelled from their published source.  Left
    out: the wording of help, usage and error messages (the function [message]) and
    what is written to standard error. *)
From Verif Require Import Base Utf8 GoStrings Json Civil Crypto Path Fs Domain Repos Session
  World Config ItemService Updater Cli Gui.

(** A flag; a flag with a truth value need not be given one (pflag's NoOptDefVal). *)
Record flag := MkFlag { f_long : bytes; f_short : ascii; f_bool : bool }.

(** cobra.go:43, 94-97, 110-111, 124-125 *)
Definition vault_flag := MkFlag (b "vault") "v" false.
Definition category_flag := MkFlag (b "category") "c" false.
Definition name_flag := MkFlag (b "name") "n" false.
Definition trashed_flag := MkFlag (b "trashed") "t" true.
(** cobra command.go, InitDefaultHelpFlag: every command has it once it is chosen. *)
Definition help_flag := MkFlag (b "help") "h" true.

(** strconv.ParseBool *)
Definition parse_bool (s : bytes) : option bool :=
  if existsb (bytes_eqb s) [b "1"; b "t"; b "T"; b "TRUE"; b "true"; b "True"] then Some true
  else if existsb (bytes_eqb s) [b "0"; b "f"; b "F"; b "FALSE"; b "false"; b "False"] then Some false
  else None.

(** A flag that was set, with its value; for a truth value [b "true"] or [b "false"]. *)
Notation sets := (list (bytes * bytes)).

(** What one word of the command line is. *)
Inductive word :=
| WArg                               (* not a flag *)
| WEnd                               (* [--]: no flags from here on *)
| WSets (l : sets)                   (* flags with their values *)
| WNeeds (l : sets) (f : flag)       (* the same, and a flag whose value is the next word *)
| WBad.                              (* an error *)

Definition find_long (fs : list flag) (n : bytes) : option flag := find (fun f => bytes_eqb (f_long f) n) fs.
Definition find_short (fs : list flag) (c : ascii) : option flag := find (fun f => Ascii.eqb (f_short f) c) fs.

(** flag.go Set; bool.go Set; string.go Set *)
Definition set_flag (f : flag) (v : bytes) : word :=
  if f_bool f then match parse_bool v with
                   | Some x => WSets [(f_long f, bool_text x)]
                   | None => WBad
                   end
  else WSets [(f_long f, v)].

Definition after (s : bytes * bytes) (x : word) : word :=
  match x with
  | WSets l => WSets (s :: l)
  | WNeeds l f => WNeeds (s :: l) f
  | x => x
  end.

(** flag.go parseShortArg and parseSingleShortArg: [sh] is the word without its dash. *)
Fixpoint short_word (fs : list flag) (sh : bytes) : word :=
  match sh with
  | [] => WSets []
  | c :: sh' =>
      if has_prefix (b "test.") sh then WSets []
      else match find_short fs c with
           | None => WBad
           | Some f =>
               match sh' with
               | "="%char :: x :: v => set_flag f (x :: v)
               | _ => if f_bool f then after (f_long f, b "true") (short_word fs sh')
                      else match sh' with
                           | [] => WNeeds [] f
                           | _ => WSets [(f_long f, sh')]
                           end
               end
           end
  end.

(** strings.SplitN(name, "=", 2) *)
Fixpoint split_equals (s : bytes) : bytes * option bytes :=
  match s with
  | [] => ([], None)
  | c :: s' => if Ascii.eqb c "=" then ([], Some s')
               else let (n, v) := split_equals s' in (c :: n, v)
  end.

(** flag.go parseLongArg: [name] is the word without its two dashes. *)
Definition long_word (fs : list flag) (name : bytes) : word :=
  match name with
  | [] => WEnd
  | c :: _ =>
      if Ascii.eqb c "-" || Ascii.eqb c "=" then WBad
      else let (n, v) := split_equals name in
           match find_long fs n with
           | None => WBad
           | Some f => match v with
                       | Some x => set_flag f x
                       | None => if f_bool f then WSets [(f_long f, b "true")] else WNeeds [] f
                       end
           end
  end.

(** flag.go parseArgs, the cases of one word *)
Definition word_of (fs : list flag) (s : bytes) : word :=
  match s with
  | "-"%char :: "-"%char :: name => long_word fs name
  | "-"%char :: c :: sh => short_word fs (c :: sh)
  | _ => WArg
  end.

(** flag.go parseArgs: the flags set, oldest first, and the arguments; None is an error. *)
Fixpoint parse_args (fs : list flag) (args : list bytes) : option (sets * list bytes) :=
  match args with
  | [] => Some ([], [])
  | s :: rest =>
      match word_of fs s with
      | WArg => match parse_args fs rest with
                | Some (l, a) => Some (l, s :: a)
                | None => None
                end
      | WEnd => Some ([], rest)
      | WSets l => match parse_args fs rest with
                   | Some (l', a) => Some (l ++ l', a)
                   | None => None
                   end
      | WNeeds l f =>
          match rest with
          | [] => None
          | v :: rest' => match parse_args fs rest' with
                          | Some (l', a) => Some (l ++ (f_long f, v) :: l', a)
                          | None => None
                          end
          end
      | WBad => None
      end
  end.

(** The value of a flag: the last one set, else the default. *)
Fixpoint value_of (n : bytes) (dflt : bytes) (l : sets) : bytes :=
  match l with
  | [] => dflt
  | (k, v) :: l' => value_of n (if bytes_eqb k n then v else dflt) l'
  end.

Definition text_of (f : flag) (l : sets) : bytes := value_of (f_long f) [] l.
Definition truth_of (f : flag) (l : sets) : bool := bytes_eqb (value_of (f_long f) (b "false") l) (b "true").

(** command.go hasNoOptDefVal, shortHasNoOptDefVal *)
Definition takes_no_value (o : option flag) : bool := match o with Some f => f_bool f | None => false end.

Definition no_equals (s : bytes) : bool := negb (existsb (Ascii.eqb "=") s).

(** command.go stripFlags: whether the next word is taken to be the value of this one. *)
Definition skips_next (fs : list flag) (s : bytes) : bool :=
  match s with
  | "-"%char :: "-"%char :: n => no_equals s && negb (takes_no_value (find_long fs n))
  | ["-"%char; c] => no_equals s && negb (takes_no_value (find_short fs c))
  | _ => false
  end.

Definition is_plain (s : bytes) : bool :=
  match s with
  | [] => false
  | c :: _ => negb (Ascii.eqb c "-")
  end.

(** command.go stripFlags *)
Fixpoint strip_flags (fs : list flag) (args : list bytes) : list bytes :=
  match args with
  | [] => []
  | s :: args' =>
      if bytes_eqb s (b "--") then []
      else if skips_next fs s then
        match args' with
        | _ :: (_ :: _) as args'' => strip_flags fs args''
        | _ => []
        end
      else if is_plain s then s :: strip_flags fs args'
      else strip_flags fs args'
  end.

(** command.go argsMinusFirstX *)
Fixpoint minus_first (x : bytes) (args : list bytes) : list bytes :=
  match args with
  | [] => []
  | y :: args' => if bytes_eqb x y then args' else y :: minus_first x args'
  end.

(** cobra.go:33-156: the commands, [help] (command.go InitDefaultHelpCmd) and the hidden command
    of shell completion (custom_completions.go initCompleteCmd). *)
Inductive sub := SUpdate | SConfigure | SCategories | SList | SOverview | SDetails | SVersion | SHelp | SComplete.

Definition sub_names : list (bytes * sub) :=
  [(b "update", SUpdate); (b "configure", SConfigure); (b "categories", SCategories); (b "list", SList);
   (b "overview", SOverview); (b "details", SDetails); (b "version", SVersion); (b "help", SHelp);
   (b "__complete", SComplete); (b "__completeNoDesc", SComplete)].

(** cobra.go:43, 94-97, 110-111, 124-125 *)
Definition root_flags : list flag := [vault_flag].
Definition sub_flags (s : sub) : list flag :=
  match s with
  | SList => [vault_flag; category_flag; name_flag; trashed_flag]
  | SOverview | SDetails => [vault_flag; trashed_flag]
  | _ => []
  end.

(** What a command line asks for. *)
Inductive request :=
| Gui (vault : bytes)
| Cmd (c : command)
| Help            (* a help text or completions are printed *)
| Wrong.          (* an error is printed *)

(** args.go NoArgs, ExactArgs(1), MinimumNArgs(1), and the commands' Run functions:
    cobra.go:57-58, 72-73, 80-81, 90-92, 105-107, 119-121, 131-134. *)
Definition run_sub (s : sub) (l : sets) (args : list bytes) : request :=
  match s with
  | SUpdate => Cmd CmdUpdate
  | SConfigure => Cmd CmdConfigure
  | SCategories => Cmd CmdCategories
  | SVersion => Cmd CmdVersion
  | SHelp => Help
  | SList =>
      match args with
      | [] => Cmd (CmdList (text_of vault_flag l) (text_of category_flag l) (text_of name_flag l) (truth_of trashed_flag l))
      | _ => Wrong
      end
  | SOverview =>
      match args with
      | [uid] => Cmd (CmdOverview (text_of vault_flag l) uid (truth_of trashed_flag l))
      | _ => Wrong
      end
  | SDetails =>
      match args with
      | [uid] => Cmd (CmdDetails (text_of vault_flag l) uid (truth_of trashed_flag l))
      | _ => Wrong
      end
  | SComplete => match args with [] => Wrong | _ => Help end
  end.

(** command.go execute: flags, help, number of arguments, Run. *)
Definition execute_sub (s : sub) (args : list bytes) : request :=
  match s with
  | SComplete => run_sub s [] args           (* DisableFlagParsing *)
  | _ =>
      match parse_args (sub_flags s ++ [help_flag]) args with
      | None => Wrong
      | Some (l, a) => if truth_of help_flag l then Help else run_sub s l a
      end
  end.

Definition execute_root (args : list bytes) : request :=
  match parse_args (root_flags ++ [help_flag]) args with
  | None => Wrong
  | Some (l, _) => if truth_of help_flag l then Help else Gui (text_of vault_flag l)
  end.

(** command.go ExecuteC and Find, args.go legacyArgs; [args] is os.Args[1:]. *)
Definition read_args (args : list bytes) : request :=
  match strip_flags root_flags args with
  | [] => execute_root args
  | n :: _ => match mget n sub_names with
              | Some s => execute_sub s (minus_first n args)
              | None => Wrong
              end
  end.

(** main.go:27-33: os.UserHomeDir fails if HOME is empty. *)
Definition settings_dir (home : bytes) : bytes := join_path [home; b ".config"; b "1pass"].

(** How the program ends: as a command, or in the GUI. *)
Inductive ending :=
| Ended (w : world) (r : res unit)
| InGui (g : gui) (r : res bool).

Section Program.
Variable C : crypto.
Variable U : unicode.
Variable tz : Z -> Z.
Variable O : oracles.
Variable Y : yaml.
Variable T : unpacker.
Variable render : list (list bytes) -> bytes.
Variable center : bytes -> Z -> bytes.
Variable message : list bytes -> bytes.   (* help and error messages *)

(** main.go:26-70 and cobra.go:147-153.  The settings are read before the command line; an
    error of the command line is printed and the program ends normally. *)
Definition program (home : bytes) (args : list bytes) (width height : Z) (es : list (oracles * input))
  (w : world) : ending :=
  match home with
  | [] => Ended w (Exit 1)
  | _ =>
      let dir := settings_dir home in
      match read_args args with
      | Gui v => let (g, r) := gui_process C U tz Y dir center v width height es w in InGui g r
      | Cmd c => let (w', r) := process C U tz O Y T render dir c w in Ended w' r
      | Help | Wrong =>
          match load_config Y (w_disk w) dir with
          | Ok _ => let (w', r) := println (message args) w in Ended w' r
          | Panic => Ended w Panic
          | Exit n => Ended w (Exit n)
          end
      end
  end.

End Program.
