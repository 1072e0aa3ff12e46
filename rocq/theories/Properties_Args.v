(** Properties of the command line (C94-C97).  Libraries, disks, networks, clocks, terminals and the texts of
    messages are arbitrary. *)
From Verif Require Import Base Utf8 GoStrings GoStringsProof Json Civil Crypto Path Fs FsProof Domain Repos Session
  World WorldProof Config ItemService Updater Cli Gui Args Spec_Args ArgsProof
  Spec_Vault Toy ToyYaml Properties_Layout Properties_Config Properties_Update Properties_Check Properties_Cli Properties_Effects Properties_Gui3.

Local Notation newline := World.newline.

(** The program with its libraries, run by a user whose home is [home]. *)
Record setup := MkSetup {
  s_C : crypto; s_U : unicode; s_tz : Z -> Z; s_O : oracles; s_Y : yaml; s_T : unpacker;
  s_render : list (list bytes) -> bytes; s_center : bytes -> Z -> bytes; s_message : list bytes -> bytes;
  s_home : bytes; s_width : Z; s_height : Z; s_keys : list (oracles * input);
}.

Definition run (s : setup) (args : list bytes) (w : world) : ending :=
  program (s_C s) (s_U s) (s_tz s) (s_O s) (s_Y s) (s_T s) (s_render s) (s_center s) (s_message s)
    (s_home s) args (s_width s) (s_height s) (s_keys s) w.

(** A command, with the settings of [$HOME/.config/1pass]. *)
Definition runs (s : setup) (c : command) (w : world) : ending :=
  let (w', r) := process (s_C s) (s_U s) (s_tz s) (s_O s) (s_Y s) (s_T s) (s_render s)
                   (join_path [s_home s; b ".config"; b "1pass"]) c w in
  Ended w' r.

(** The GUI. *)
Definition opens (s : setup) (vault : bytes) (w : world) : ending :=
  let (g, r) := gui_process (s_C s) (s_U s) (s_tz s) (s_Y s) (join_path [s_home s; b ".config"; b "1pass"])
                  (s_center s) vault (s_width s) (s_height s) (s_keys s) w in
  InGui g r.

(** Nothing but a text on the terminal, and the end; or not even that, if the settings cannot be read. *)
Definition only_prints (w : world) (e : ending) : Prop :=
  (exists text, e = Ended (add_event (EOut text) w) (Ok tt)) \/ (exists r, e = Ended w r /\ r <> Ok tt).

Lemma run_eq s args w : s_home s <> [] -> run s args w =
  match read_args args with
  | Args.Gui v => opens s v w
  | Cmd c => runs s c w
  | Help | Wrong =>
      match load_config (s_Y s) (w_disk w) (settings_dir (s_home s)) with
      | Ok _ => let (w', r) := println (s_message s args) w in Ended w' r
      | Panic => Ended w Panic
      | Exit n => Ended w (Exit n)
      end
  end.
Proof. unfold run, program. destruct (s_home s) eqn:E; [congruence|]. intros _. unfold opens, runs, settings_dir. rewrite E. reflexivity. Qed.

Lemma run_prints s args w : s_home s <> [] -> read_args args = Help \/ read_args args = Wrong -> only_prints w (run s args w).
Proof.
  intros Hh H. rewrite run_eq by exact Hh.
  assert (P : only_prints w (match load_config (s_Y s) (w_disk w) (settings_dir (s_home s)) with
      | Ok _ => let (w', r) := println (s_message s args) w in Ended w' r
      | Panic => Ended w Panic
      | Exit n => Ended w (Exit n)
      end)).
  { destruct (load_config _ _ _).
    - left. eexists. reflexivity.
    - right. eexists. split; [reflexivity|discriminate].
    - right. eexists. split; [reflexivity|discriminate]. }
  destruct H as [-> | ->]; exact P.
Qed.

(** ** Which command *)

(** A word that can only be the name of a command. *)
Definition a_name (n : bytes) : Prop := n <> [] /\ hd_error n <> Some "-"%char.

Lemma a_name_plain n : a_name n -> is_plain n = true /\ skips_next root_flags n = false /\ bytes_eqb n (b "--") = false.
Proof.
  intros [N D]. destruct n as [ | c n ]; [congruence|]. cbn in D. split; [|split].
  - cbn [is_plain]. destruct (Ascii.eqb_spec c "-"); [congruence|reflexivity].
  - destruct c as [[] [] [] [] [] [] [] []]; try reflexivity; congruence.
  - apply bytes_eqb_neq. intros E. injection E as -> _. congruence.
Qed.

Lemma read_named n rest : a_name n ->
  read_args (n :: rest) = match mget n sub_names with Some s => execute_sub s rest | None => Wrong end.
Proof.
  intros H. destruct (a_name_plain n H) as (A & B & D). unfold read_args. cbn [strip_flags]. rewrite A, B, D.
  cbn [minus_first]. rewrite bytes_eqb_refl. reflexivity.
Qed.

Lemma read_sub n s rest : In (n, s) sub_names -> read_args (n :: rest) = execute_sub s rest.
Proof.
  intros H. cbn [In sub_names] in H.
  repeat (destruct H as [E | H]; [injection E as <- <-; rewrite read_named by (split; discriminate); reflexivity|]). destruct H.
Qed.

(** Strip and rest. *)
Lemma strip_in fs n : forall args x l, List.length args <= n -> strip_flags fs args = x :: l -> In x args.
Proof.
  induction n as [ | n IH ]; intros args x l L H.
  { destruct args; [discriminate|cbn in L; lia]. }
  destruct args as [ | s args ]; [discriminate|]. cbn [List.length] in L. cbn [strip_flags] in H.
  destruct (bytes_eqb s (b "--")); [discriminate|]. destruct (skips_next fs s).
  - destruct args as [ | s1 [ | s2 args ]]; try discriminate. cbn [List.length] in L.
    right. right. apply (IH (s2 :: args) x l); [cbn [List.length]; lia|exact H].
  - destruct (is_plain s); [injection H as -> _; now left|]. right. apply (IH args x l); [lia|exact H].
Qed.

(** ** C94 *)

Lemma run_cmd s args w c : s_home s <> [] -> read_args args = Cmd c -> run s args w = runs s c w.
Proof. intros Hh H. rewrite run_eq by exact Hh. rewrite H. reflexivity. Qed.

Lemma read_list l rest : line l [] rest -> is_on FHelp l = false -> read_args (b "list" :: rest) =
  Cmd (CmdList (text_value FVault l) (text_value FCategory l) (text_value FName l) (is_on FTrashed l)).
Proof.
  intros L H. rewrite (read_sub _ SList) by (cbn; tauto).
  unfold execute_sub. rewrite (line_parsed _ _ knows_list l [] rest L) by (apply Forall_forall; intros; exact Logic.I).
  change help_flag with (sflag FHelp). rewrite value_switch, H. cbn [run_sub].
  change vault_flag with (tflag FVault). change category_flag with (tflag FCategory). change name_flag with (tflag FName).
  change trashed_flag with (sflag FTrashed). rewrite !value_text, value_switch. reflexivity.
Qed.

Lemma read_item l uid rest : line l [uid] rest -> Forall flags_item l -> is_on FHelp l = false ->
  read_args (b "overview" :: rest) = Cmd (CmdOverview (text_value FVault l) uid (is_on FTrashed l)) /\
  read_args (b "details" :: rest) = Cmd (CmdDetails (text_value FVault l) uid (is_on FTrashed l)).
Proof.
  intros L F H.
  rewrite (read_sub (b "overview") SOverview), (read_sub (b "details") SDetails) by (cbn; tauto).
  unfold execute_sub, sub_flags. rewrite (line_parsed _ _ knows_item l [uid] rest L F).
  change help_flag with (sflag FHelp). rewrite value_switch, H. cbn [run_sub].
  change vault_flag with (tflag FVault). change trashed_flag with (sflag FTrashed). rewrite value_text, value_switch.
  split; reflexivity.
Qed.

(** [list] lists what its flags say, in whatever order and spelling they are given. *)
Theorem C94_list : forall s w l rest,
  s_home s <> [] -> line l [] rest -> is_on FHelp l = false ->
  run s (b "list" :: rest) w =
  runs s (CmdList (text_value FVault l) (text_value FCategory l) (text_value FName l) (is_on FTrashed l)) w.
Proof. intros s w l rest Hh L H. apply run_cmd, read_list; assumption. Qed.
Print Assumptions C94_list.

(** [overview] and [details] show the item named, which may stand before, between or behind the flags. *)
Theorem C94_item : forall s w l uid rest,
  s_home s <> [] -> line l [uid] rest -> Forall flags_item l -> is_on FHelp l = false ->
  run s (b "overview" :: rest) w = runs s (CmdOverview (text_value FVault l) uid (is_on FTrashed l)) w /\
  run s (b "details" :: rest) w = runs s (CmdDetails (text_value FVault l) uid (is_on FTrashed l)) w.
Proof.
  intros s w l uid rest Hh L F H. destruct (read_item l uid rest L F H) as [R1 R2].
  split; apply run_cmd; assumption.
Qed.
Print Assumptions C94_item.

(** The others have no flags and take no notice of further words. *)
Theorem C94_others : forall s w l args rest n c,
  s_home s <> [] -> line l args rest -> Forall flags_none l -> is_on FHelp l = false ->
  In (n, c) [(b "update", CmdUpdate); (b "configure", CmdConfigure); (b "categories", CmdCategories);
             (b "version", CmdVersion)] ->
  run s (n :: rest) w = runs s c w.
Proof.
  intros s w l args rest n c Hh L F H Hin. rewrite run_eq by exact Hh.
  assert (P := line_parsed _ _ knows_none l args rest L F).
  assert (E : forall x, In (n, x) sub_names -> sub_flags x = [] -> x <> SComplete -> run_sub x (map pair_of l) args = Cmd c ->
    read_args (n :: rest) = Cmd c).
  { intros x I1 I2 I3 I4. rewrite (read_sub n x rest I1). unfold execute_sub.
    assert (Q : match parse_args (sub_flags x ++ [help_flag]) rest with
                | None => Wrong
                | Some (l, a) => if truth_of help_flag l then Help else run_sub x l a
                end = Cmd c).
    { rewrite I2. cbn [Datatypes.app]. rewrite P. change help_flag with (sflag FHelp). rewrite value_switch, H. exact I4. }
    destruct x; try exact Q. congruence. }
  cbn [In] in Hin.
  destruct Hin as [K | [K | [K | [K | []]]]]; injection K as <- <-.
  - rewrite (E SUpdate); [reflexivity|cbn; tauto|reflexivity|discriminate|reflexivity].
  - rewrite (E SConfigure); [reflexivity|cbn; tauto|reflexivity|discriminate|reflexivity].
  - rewrite (E SCategories); [reflexivity|cbn; tauto|reflexivity|discriminate|reflexivity].
  - rewrite (E SVersion); [reflexivity|cbn; tauto|reflexivity|discriminate|reflexivity].
Qed.
Print Assumptions C94_others.

(** ** Flags in front *)

Definition only_vault (s : setting) : Prop := match s with Text FVault _ => True | _ => False end.

Lemma only_vault_gui l : Forall only_vault l -> Forall flags_gui l.
Proof. apply Forall_impl. intros [[] v | [] x]; cbn; tauto. Qed.

Lemma no_skip_long r : no_equals r = false -> skips_next root_flags (b "--" ++ r) = false.
Proof. intros H. cbn. unfold no_equals in *. cbn [existsb]. change (Ascii.eqb "=" "-") with false. cbn [orb]. rewrite H. reflexivity. Qed.

Lemma equals_in x y : no_equals (x ++ b "=" ++ y) = false.
Proof. unfold no_equals. rewrite existsb_app. cbn [existsb b list_ascii_of_string Datatypes.app]. change (Ascii.eqb "=" "=") with true. cbn [orb]. rewrite orb_true_r. reflexivity. Qed.

Lemma vault_words l ws : group l ws -> Forall only_vault l ->
  (exists w, ws = [w] /\ is_plain w = false /\ bytes_eqb w (b "--") = false /\ skips_next root_flags w = false) \/
  (exists w v, ws = [w; v] /\ bytes_eqb w (b "--") = false /\ skips_next root_flags w = true).
Proof.
  intros [s ws0 W | f l0 r ws0 G N D | r] F.
  - apply Forall_inv in F. destruct W as [f v | f v | f v | f v N | f v J | f | f | f x v S | f x v S];
      try (destruct f; contradiction); destruct f; try contradiction.
    + right. exists (b "-v"), v. repeat split.
    + right. exists (b "--vault"), v. repeat split.
    + left. eexists. split; [reflexivity|]. split; [reflexivity|]. split; [reflexivity|].
      apply (no_skip_long (b "vault" ++ b "=" ++ v)). apply equals_in.
    + left. eexists. split; [reflexivity|]. destruct v as [ | c v ]; [congruence|]. repeat split.
    + left. eexists. split; [reflexivity|]. destruct J as [N J]. destruct v as [ | c v ]; [congruence|]. repeat split.
  - apply Forall_inv in F. destruct f; contradiction.
  - left. eexists. split; [reflexivity|]. repeat split.
Qed.

Lemma strip_vaults l args ws : line l args ws -> args = [] -> Forall only_vault l -> strip_flags root_flags ws = [].
Proof.
  induction 1 as [ | l ws l' args rest G L IH | x l args rest X L IH | args ]; intros Ea F.
  - reflexivity.
  - apply Forall_app in F as [F1 F2]. specialize (IH Ea F2).
    destruct (vault_words l ws G F1) as [(w & -> & A & B & D) | (w & v & -> & B & D)]; cbn [Datatypes.app strip_flags].
    + rewrite B, D, A. exact IH.
    + rewrite B, D. destruct rest; [reflexivity|exact IH].
  - discriminate.
  - reflexivity.
Qed.

(** Without a command the GUI opens the vault of the flag [--vault]. *)
Theorem C94_gui : forall s w l ws,
  s_home s <> [] -> line l [] ws -> Forall only_vault l ->
  run s ws w = opens s (text_value FVault l) w.
Proof.
  intros s w l ws Hh L F. rewrite run_eq by exact Hh. unfold read_args.
  rewrite (strip_vaults l [] ws L eq_refl F). unfold execute_root.
  rewrite (line_parsed _ _ knows_gui l [] ws L (only_vault_gui l F)).
  change help_flag with (sflag FHelp). rewrite value_switch.
  assert (H : is_on FHelp l = false).
  { unfold is_on. replace (switches FHelp l) with (@nil bool); [reflexivity|].
    clear L. induction F as [ | x l X F IH ]; [reflexivity|]. destruct x as [f v | f v]; [exact IH|destruct X]. }
  rewrite H. change vault_flag with (tflag FVault). rewrite value_text. reflexivity.
Qed.
Print Assumptions C94_gui.

Lemma strip_front l args ws n rest : line l args ws -> args = [] -> Forall only_vault l -> ~ In (b "--") ws ->
  strip_flags root_flags (ws ++ n :: rest) = strip_flags root_flags (n :: rest).
Proof.
  induction 1 as [ | l ws l' args rst G L IH | x l args rst X L IH | args ]; intros Ea F Nd.
  - reflexivity.
  - apply Forall_app in F as [F1 F2].
    assert (Nd' : ~ In (b "--") rst) by (intros I1; apply Nd, in_or_app; now right).
    specialize (IH Ea F2 Nd').
    destruct (vault_words l ws G F1) as [(w & -> & A & B & D) | (w & v & -> & B & D)];
      rewrite <- IH, <- app_assoc; cbn [Datatypes.app strip_flags].
    + rewrite B, D, A. reflexivity.
    + rewrite B, D. destruct (rst ++ n :: rest) eqn:E; [destruct rst; discriminate|reflexivity].
  - discriminate.
  - destruct Nd. now left.
Qed.

Lemma minus_front n ws rest : ~ In n ws -> minus_first n (ws ++ n :: rest) = ws ++ rest.
Proof.
  induction ws as [ | x ws IH ]; intros H; cbn [Datatypes.app minus_first].
  - rewrite bytes_eqb_refl. reflexivity.
  - assert (E : bytes_eqb n x = false) by (apply bytes_eqb_neq; intros ->; apply H; now left).
    rewrite E, IH; [reflexivity|]. intros I1. apply H. now right.
Qed.

Lemma line_front l args ws l' args' rest : line l args ws -> args = [] -> ~ In (b "--") ws -> line l' args' rest ->
  line (l ++ l') args' (ws ++ rest).
Proof.
  induction 1 as [ | l ws l1 args rst G L IH | x l args rst X L IH | args ]; intros Ea Nd L'.
  - exact L'.
  - rewrite <- !app_assoc. constructor; [exact G|]. apply IH; [exact Ea| |exact L'].
    intros I1. apply Nd, in_or_app. now right.
  - discriminate.
  - destruct Nd. now left.
Qed.

Lemma read_front l ws n rest x : line l [] ws -> Forall only_vault l -> ~ In (b "--") ws -> ~ In n ws ->
  In (n, x) sub_names -> read_args (ws ++ n :: rest) = read_args (n :: ws ++ rest).
Proof.
  intros L F Nd Nn I1. rewrite (read_sub n x _ I1). unfold read_args. rewrite (strip_front l [] ws n rest L eq_refl F Nd).
  assert (N : a_name n /\ mget n sub_names = Some x).
  { cbn [In sub_names] in I1.
    repeat (destruct I1 as [E | I1]; [injection E as <- <-; split; [split; discriminate|reflexivity]|]). destruct I1. }
  destruct N as [N M]. destruct (a_name_plain n N) as (A & B & D). cbn [strip_flags]. rewrite A, B, D, M.
  rewrite minus_front by exact Nn. reflexivity.
Qed.

(** [--vault] may also stand in front of the command, as long as its value is not the command's name. *)
Theorem C94_vault_in_front : forall s w l ws l' rest uid,
  s_home s <> [] -> line l [] ws -> Forall only_vault l -> ~ In (b "--") ws -> is_on FHelp l' = false ->
  (~ In (b "list") ws -> line l' [] rest ->
   run s (ws ++ b "list" :: rest) w =
   runs s (CmdList (text_value FVault (l ++ l')) (text_value FCategory l') (text_value FName l') (is_on FTrashed l')) w) /\
  (~ In (b "overview") ws -> line l' [uid] rest -> Forall flags_item l' ->
   run s (ws ++ b "overview" :: rest) w = runs s (CmdOverview (text_value FVault (l ++ l')) uid (is_on FTrashed l')) w) /\
  (~ In (b "details") ws -> line l' [uid] rest -> Forall flags_item l' ->
   run s (ws ++ b "details" :: rest) w = runs s (CmdDetails (text_value FVault (l ++ l')) uid (is_on FTrashed l')) w).
Proof.
  intros s w l ws l' rest uid Hh L F Nd H.
  assert (T : forall f, f <> FVault -> text_value f (l ++ l') = text_value f l').
  { intros f Hf. unfold text_value, texts. rewrite flat_map_app. replace (flat_map _ l) with (@nil bytes); [reflexivity|].
    clear L. induction F as [ | x l X F IH ]; [reflexivity|]. cbn [flat_map]. rewrite <- IH.
    destruct x as [[] v | ]; try destruct X. destruct f; [congruence|reflexivity|reflexivity]. }
  assert (B : forall f, is_on f (l ++ l') = is_on f l').
  { intros f. unfold is_on, switches. rewrite flat_map_app. replace (flat_map _ l) with (@nil bool); [reflexivity|].
    clear L T. induction F as [ | x l X F IH ]; [reflexivity|]. cbn [flat_map]. rewrite <- IH.
    destruct x as [[] v | ]; try destruct X. reflexivity. }
  assert (FI : Forall flags_item l).
  { revert F. apply Forall_impl. intros [[] v | [] x]; cbn; tauto. }
  assert (H' : is_on FHelp (l ++ l') = false) by (rewrite B; exact H).
  split; [|split].
  - intros Nn L'. apply run_cmd; [exact Hh|]. rewrite (read_front l ws _ rest SList L F Nd Nn) by (cbn; tauto).
    rewrite (read_list (l ++ l')); [|exact (line_front l [] ws l' [] rest L eq_refl Nd L')|exact H'].
    rewrite (T FCategory), (T FName), B by discriminate. reflexivity.
  - intros Nn L' F'. apply run_cmd; [exact Hh|]. rewrite (read_front l ws _ rest SOverview L F Nd Nn) by (cbn; tauto).
    assert (L2 := line_front l [] ws l' [uid] rest L eq_refl Nd L').
    destruct (read_item (l ++ l') uid (ws ++ rest) L2) as [-> _]; [apply Forall_app; split; assumption|exact H'|].
    rewrite B. reflexivity.
  - intros Nn L' F'. apply run_cmd; [exact Hh|]. rewrite (read_front l ws _ rest SDetails L F Nd Nn) by (cbn; tauto).
    assert (L2 := line_front l [] ws l' [uid] rest L eq_refl Nd L').
    destruct (read_item (l ++ l') uid (ws ++ rest) L2) as [_ ->]; [apply Forall_app; split; assumption|exact H'|].
    rewrite B. reflexivity.
Qed.
Print Assumptions C94_vault_in_front.

(** A command line has only one meaning. *)
Theorem C94_one_meaning : forall ws l l' args args', line l args ws -> line l' args' ws -> l = l' /\ args = args'.
Proof.
  intros ws l l' args args' L L'.
  assert (A : forall l, Forall flags_list l) by (intros; apply Forall_forall; intros; exact Logic.I).
  assert (P := line_parsed _ _ knows_list l args ws L (A l)).
  rewrite (line_parsed _ _ knows_list l' args' ws L' (A l')) in P. injection P as P ->. split; [|reflexivity].
  clear -P. revert l' P. induction l as [ | x l IH ]; intros [ | y l' ] P; try discriminate; [reflexivity|].
  cbn [map] in P. injection P as P1 P2. rewrite (IH l') by exact P2. f_equal. clear -P1.
  destruct x as [[] v | [] []], y as [[] v' | [] []]; cbn in P1; try discriminate; try reflexivity; injection P1 as ->; reflexivity.
Qed.
Print Assumptions C94_one_meaning.

(** [list -v /tmp/my\ vault -tnbank -c=Login], [details --trashed=no-uid...]: mixed spellings. *)
Definition demo_line : list bytes := [b "-v"; b "/tmp/my vault"; b "-tnbank"; b "--category=Login"; b "-t=F"; b "-v=/x"].

Lemma demo_line_ok : line [Text FVault (b "/tmp/my vault"); Switch FTrashed true; Text FName (b "bank");
    Text FCategory (b "Login"); Switch FTrashed false; Text FVault (b "/x")] [] demo_line.
Proof.
  apply (line_flags [_] [b "-v"; b "/tmp/my vault"]); [apply single, (short_space FVault)|].
  apply (line_flags [_; _] [b "-tnbank"]).
  { apply (together FTrashed [_] (b "nbank")); [|discriminate|discriminate].
    apply single, (short_joined FName (b "bank")). split; [discriminate|]. intros c x. discriminate. }
  apply (line_flags [_] [b "--category=Login"]); [apply single, (long_equals FCategory (b "Login"))|].
  apply (line_flags [_] [b "-t=F"]); [apply single, (switch_equals FTrashed false (b "F")); cbn; tauto|].
  apply (line_flags [_] [b "-v=/x"]); [apply single, (short_equals FVault (b "/x")); discriminate|].
  constructor.
Qed.

Example C94_list_example : forall s w, s_home s = b "/home/ann" ->
  run s (b "list" :: demo_line) w = runs s (CmdList (b "/x") (b "Login") (b "bank") false) w.
Proof. intros s w H. rewrite (C94_list s w _ _ (ltac:(rewrite H; discriminate)) demo_line_ok) by reflexivity. reflexivity. Qed.

Example C94_item_example : forall s w, s_home s = b "/home/ann" ->
  run s [b "details"; b "-tv"; b "/x"; b "ABC"] w = runs s (CmdDetails (b "/x") (b "ABC") true) w.
Proof.
  intros s w H. refine (proj2 (C94_item s w [Switch FTrashed true; Text FVault (b "/x")] (b "ABC") _ _ _ _ _)).
  - rewrite H. discriminate.
  - apply (line_flags [_; _] [b "-tv"; b "/x"]).
    + apply (together FTrashed [_] (b "v")); [|discriminate|discriminate]. apply single, (short_space FVault).
    + apply line_argument; [right; discriminate|constructor].
  - repeat constructor.
  - reflexivity.
Qed.

Example C94_gui_example : forall s w, s_home s = b "/home/ann" -> run s [b "--vault=/x"] w = opens s (b "/x") w.
Proof.
  intros s w H. refine (C94_gui s w [Text FVault (b "/x")] _ _ _ _).
  - rewrite H. discriminate.
  - apply (line_flags [_] [b "--vault=/x"]); [apply single, (long_equals FVault (b "/x"))|constructor].
  - repeat constructor.
Qed.

Example C94_others_example : forall s w, s_home s = b "/home/ann" -> run s [b "version"; b "please"] w = runs s CmdVersion w.
Proof.
  intros s w H. refine (C94_others s w [] [b "please"] _ _ _ _ _ _ _ _).
  - rewrite H. discriminate.
  - apply line_argument; [right; discriminate|constructor].
  - constructor.
  - reflexivity.
  - cbn. tauto.
Qed.

Example C94_vault_in_front_example : forall s w, s_home s = b "/home/ann" ->
  run s [b "-v"; b "/x"; b "list"; b "-t"] w = runs s (CmdList (b "/x") [] [] true) w.
Proof.
  intros s w H.
  refine (proj1 (C94_vault_in_front s w [Text FVault (b "/x")] [b "-v"; b "/x"] [Switch FTrashed true] [b "-t"] [] _ _ _ _ _) _ _).
  - rewrite H. discriminate.
  - apply (line_flags [_] [b "-v"; b "/x"]); [apply single, (short_space FVault)|constructor].
  - repeat constructor.
  - cbn [In]. intuition discriminate.
  - reflexivity.
  - cbn [In]. intuition discriminate.
  - apply (line_flags [_] [b "-t"]); [apply single, (switch_on FTrashed)|constructor].
Qed.

(** A program with these messages, in the home /home/ann. *)
Definition demo_setup (message : list bytes -> bytes) : setup := {|
  s_C := toy_crypto; s_U := latin1; s_tz := utc; s_O := forwards; s_Y := toy_yaml; s_T := demo_tar;
  s_render := fun _ => []; s_center := fun x _ => x; s_message := message; s_home := b "/home/ann";
  s_width := 80; s_height := 24; s_keys := [] |}.

(** The other flags may not: [1pass -t list] is an error. *)
Theorem C94_in_front_refuted :
  ~ (forall s w l ws, s_home s <> [] -> line l [] ws -> ~ In (b "--") ws -> ~ In (b "list") ws -> is_on FHelp l = false ->
     run s (ws ++ [b "list"]) w =
     runs s (CmdList (text_value FVault l) (text_value FCategory l) (text_value FName l) (is_on FTrashed l)) w).
Proof.
  intros H.
  assert (L : line [Switch FTrashed true] [] [b "-t"]).
  { apply (line_flags [_] [b "-t"]); [apply single, (switch_on FTrashed)|constructor]. }
  assert (M : forall m c w, runs (demo_setup m) c w = runs (demo_setup (fun _ => [])) c w) by (intros; unfold runs, demo_setup; reflexivity).
  assert (A : forall m, run (demo_setup m) ([b "-t"] ++ [b "list"]) conf_world =
    runs (demo_setup (fun _ => [])) (CmdList (text_value FVault [Switch FTrashed true]) (text_value FCategory [Switch FTrashed true])
      (text_value FName [Switch FTrashed true]) (is_on FTrashed [Switch FTrashed true])) conf_world).
  { intros m. rewrite <- (M m). apply H; [discriminate|exact L| | |reflexivity]; cbn [In]; intuition discriminate. }
  assert (B := eq_trans (A (fun _ => [])) (eq_sym (A (fun _ => b "x")))). clear A M H.
  vm_compute in B. discriminate.
Qed.
Print Assumptions C94_in_front_refuted.

(** ** C95 *)

Lemma list_wrong : forall rest,
  (forall l, line l [] rest -> is_on FHelp l = true) -> read_args (b "list" :: rest) = Help \/ read_args (b "list" :: rest) = Wrong.
Proof.
  intros rest N. rewrite (read_sub _ SList) by (cbn; tauto). unfold execute_sub.
  destruct (parse_args _ rest) as [[l a] | ] eqn:P; [|now right].
  destruct (parsed_line _ _ knows_list (List.length rest) rest l a (le_n _) P) as (ls & -> & F & L).
  change help_flag with (sflag FHelp). rewrite value_switch. destruct (is_on FHelp ls) eqn:E; [now left|].
  destruct a as [ | x a ]; [rewrite (N ls L) in E; discriminate|]. now right.
Qed.

(** What is not a command line of [list] has no effect... *)
Theorem C95_list : forall s w rest,
  s_home s <> [] -> (forall l, line l [] rest -> is_on FHelp l = true) -> only_prints w (run s (b "list" :: rest) w).
Proof. intros s w rest Hh N. apply run_prints; [exact Hh|]. now apply list_wrong. Qed.
Print Assumptions C95_list.

Lemma item_wrong : forall rest n,
  (forall l uid, line l [uid] rest -> Forall flags_item l -> is_on FHelp l = true) ->
  n = b "overview" \/ n = b "details" -> read_args (n :: rest) = Help \/ read_args (n :: rest) = Wrong.
Proof.
  intros rest n N Hn.
  assert (G : forall x, (forall l a, (forall u, a <> [u]) -> run_sub x l a = Wrong) -> sub_flags x = [vault_flag; trashed_flag] ->
    x = SOverview \/ x = SDetails -> execute_sub x rest = Help \/ execute_sub x rest = Wrong).
  { intros x G1 G2 G3. unfold execute_sub. rewrite G2.
    assert (Q : match parse_args ([vault_flag; trashed_flag] ++ [help_flag]) rest with
                | None => Wrong
                | Some (l, a) => if truth_of help_flag l then Help else run_sub x l a
                end = Help \/
                match parse_args ([vault_flag; trashed_flag] ++ [help_flag]) rest with
                | None => Wrong
                | Some (l, a) => if truth_of help_flag l then Help else run_sub x l a
                end = Wrong).
    { destruct (parse_args _ rest) as [[l a] | ] eqn:P; [|now right].
      destruct (parsed_line _ _ knows_item (List.length rest) rest l a (le_n _) P) as (ls & -> & F & L).
      change help_flag with (sflag FHelp). rewrite value_switch. destruct (is_on FHelp ls) eqn:E; [now left|]. right.
      apply G1. intros u ->. rewrite (N ls u L F) in E. discriminate. }
    destruct G3 as [-> | ->]; exact Q. }
  assert (W : forall x l a, x = SOverview \/ x = SDetails -> (forall u, a <> [u]) -> run_sub x l a = Wrong).
  { intros x l a [-> | ->] H; destruct a as [ | u [ | v a ]]; try reflexivity; congruence. }
  destruct Hn as [-> | ->].
  - rewrite (read_sub _ SOverview) by (cbn; tauto). apply G; [intros; apply W; tauto|reflexivity|now left].
  - rewrite (read_sub _ SDetails) by (cbn; tauto). apply G; [intros; apply W; tauto|reflexivity|now right].
Qed.

(** ... nor has what is not one of [overview] or [details]... *)
Theorem C95_item : forall s w rest n,
  s_home s <> [] -> (forall l uid, line l [uid] rest -> Forall flags_item l -> is_on FHelp l = true) ->
  n = b "overview" \/ n = b "details" -> only_prints w (run s (n :: rest) w).
Proof. intros s w rest n Hh N Hn. apply run_prints; [exact Hh|]. now apply item_wrong. Qed.
Print Assumptions C95_item.

Lemma others_wrong : forall rest n,
  (forall l args, line l args rest -> Forall flags_none l -> is_on FHelp l = true) ->
  In n [b "update"; b "configure"; b "categories"; b "version"] -> read_args (n :: rest) = Help \/ read_args (n :: rest) = Wrong.
Proof.
  intros rest n N Hn.
  assert (G : forall x, sub_flags x = [] -> x <> SComplete ->
    execute_sub x rest = Help \/ execute_sub x rest = Wrong).
  { intros x G2 G3. unfold execute_sub.
    assert (Q : match parse_args (sub_flags x ++ [help_flag]) rest with
                | None => Wrong
                | Some (l, a) => if truth_of help_flag l then Help else run_sub x l a
                end = Help \/
                match parse_args (sub_flags x ++ [help_flag]) rest with
                | None => Wrong
                | Some (l, a) => if truth_of help_flag l then Help else run_sub x l a
                end = Wrong).
    { rewrite G2. cbn [Datatypes.app]. destruct (parse_args _ rest) as [[l a] | ] eqn:P; [|now right].
      destruct (parsed_line _ _ knows_none (List.length rest) rest l a (le_n _) P) as (ls & -> & F & L).
      change help_flag with (sflag FHelp). rewrite value_switch. rewrite (N ls a L F). now left. }
    destruct x; try exact Q. congruence. }
  cbn [In] in Hn. destruct Hn as [<- | [<- | [<- | [<- | []]]]].
  - rewrite (read_sub _ SUpdate) by (cbn; tauto). apply G; [reflexivity|discriminate].
  - rewrite (read_sub _ SConfigure) by (cbn; tauto). apply G; [reflexivity|discriminate].
  - rewrite (read_sub _ SCategories) by (cbn; tauto). apply G; [reflexivity|discriminate].
  - rewrite (read_sub _ SVersion) by (cbn; tauto). apply G; [reflexivity|discriminate].
Qed.

(** ... or of one of the others, which know no flag but [--help]... *)
Theorem C95_others : forall s w rest n,
  s_home s <> [] -> (forall l args, line l args rest -> Forall flags_none l -> is_on FHelp l = true) ->
  In n [b "update"; b "configure"; b "categories"; b "version"] -> only_prints w (run s (n :: rest) w).
Proof. intros s w rest n Hh N Hn. apply run_prints; [exact Hh|]. now apply others_wrong. Qed.
Print Assumptions C95_others.

Lemma unknown_wrong : forall n rest,
  n <> [] -> hd_error n <> Some "-"%char ->
  ~ In n [b "update"; b "configure"; b "categories"; b "list"; b "overview"; b "details"; b "version"] ->
  read_args (n :: rest) = Help \/ read_args (n :: rest) = Wrong.
Proof.
  intros n rest N D Hn.
  rewrite read_named by (split; assumption).
  assert (E : forall x, mget n sub_names = Some x -> x = SHelp \/ x = SComplete).
  { intros x. unfold sub_names. cbn [mget].
    repeat match goal with
    | |- context [bytes_eqb n ?y] => destruct (bytes_eqb n y) eqn:?
    end;
    repeat match goal with K : bytes_eqb n _ = true |- _ => apply bytes_eqb_eq in K; subst n end;
    intros K; try discriminate; try (injection K as <-; tauto); destruct Hn; cbn; tauto. }
  destruct (mget n sub_names) as [x | ]; [|now right].
  destruct (E x eq_refl) as [-> | ->].
  - unfold execute_sub. destruct (parse_args _ rest) as [[l a] | ]; [|now right].
    destruct (truth_of help_flag l); now left.
  - unfold execute_sub, run_sub. destruct rest; [now right|now left].
Qed.

(** ... nor has any other word in the place of the command. *)
Theorem C95_unknown_command : forall s w n rest,
  s_home s <> [] -> n <> [] -> hd_error n <> Some "-"%char ->
  ~ In n [b "update"; b "configure"; b "categories"; b "list"; b "overview"; b "details"; b "version"] ->
  only_prints w (run s (n :: rest) w).
Proof. intros s w n rest Hh N D Hn. apply run_prints; [exact Hh|]. now apply unknown_wrong. Qed.
Print Assumptions C95_unknown_command.

(** [list foo], [details], [details A B], [update --force], [lst]. *)
Lemma demo_line_1 : line [] [b "foo"] [b "foo"].
Proof. apply line_argument; [right; discriminate|constructor]. Qed.

Example C95_example : forall s w, s_home s = b "/home/ann" ->
  only_prints w (run s [b "list"; b "foo"] w) /\ only_prints w (run s [b "details"] w) /\
  only_prints w (run s [b "overview"; b "-c"; b "x"; b "UID"] w) /\
  only_prints w (run s [b "update"; b "--force"] w) /\ only_prints w (run s [b "lst"] w).
Proof.
  intros s w H. assert (Hh : s_home s <> []) by (rewrite H; discriminate).
  split; [|split; [|split; [|split]]].
  - apply C95_list; [exact Hh|]. intros l L. destruct (C94_one_meaning _ _ _ _ _ demo_line_1 L). discriminate.
  - apply C95_item; [exact Hh| |now right]. intros l uid L. destruct (C94_one_meaning _ _ _ _ _ line_end L). discriminate.
  - apply C95_item; [exact Hh| |now left]. intros l uid L F.
    assert (P := line_parsed _ _ knows_item _ _ _ L F). vm_compute in P. discriminate.
  - apply C95_others; [exact Hh| |cbn; tauto]. intros l args L F.
    assert (P := line_parsed _ _ knows_none _ _ _ L F). vm_compute in P. discriminate.
  - apply C95_unknown_command; [exact Hh|discriminate|discriminate|]. cbn [In]. intuition discriminate.
Qed.

(** ** C96 *)

(** A mistyped command is not reported by the exit status: it is 0, as after success. *)
Theorem C96_failure_status_refuted :
  ~ (forall s w n rest, s_home s <> [] -> n <> [] -> hd_error n <> Some "-"%char ->
     ~ In n [b "update"; b "configure"; b "categories"; b "list"; b "overview"; b "details"; b "version"; b "help"] ->
     exists w' k, run s (n :: rest) w = Ended w' (Exit k) /\ k <> 0%nat).
Proof.
  intros H. destruct (H (demo_setup (fun _ => [])) conf_world (b "lst") []) as (w' & k & E & _).
  - discriminate.
  - discriminate.
  - discriminate.
  - cbn [In]. intuition discriminate.
  - vm_compute in E. discriminate.
Qed.
Print Assumptions C96_failure_status_refuted.

(** ** C97 *)

(** Without a home directory the program does nothing. *)
Theorem C97_no_home : forall s args w, s_home s = [] -> run s args w = Ended w (Exit 1).
Proof. intros s args w H. unfold run, program. rewrite H. reflexivity. Qed.
Print Assumptions C97_no_home.

(** A name between slashes, and the path of a directory. *)
Definition a_file_name (n : bytes) : Prop := n <> [] /\ n <> b "." /\ n <> b ".." /\ ~ In "/"%char n.
Definition path_of (names : list bytes) : bytes := flat_map (fun n => b "/" ++ n) names.

Lemma split_no_slash n : ~ In "/"%char n -> split_slash n = [n].
Proof.
  induction n as [ | c n IH ]; intros H; [reflexivity|]. cbn [split_slash].
  assert (E : is_slash c = false).
  { unfold is_slash. apply Ascii.eqb_neq. intros ->. apply H. now left. }
  rewrite E, IH; [reflexivity|]. intros I1. apply H. now right.
Qed.

Lemma split_path_of names : Forall a_file_name names -> split_slash (path_of names) = [] :: names.
Proof.
  induction 1 as [ | n names (N1 & N2 & N3 & N4) F IH ]; [reflexivity|].
  cbn [path_of flat_map]. fold (path_of names). cbn [b list_ascii_of_string Datatypes.app split_slash].
  change (is_slash "/") with true. cbn iota. f_equal.
  destruct names as [ | m names ].
  - cbn [path_of flat_map]. rewrite app_nil_r. apply split_no_slash, N4.
  - cbn [path_of flat_map] in IH |- *. fold (path_of names) in IH |- *.
    cbn [b list_ascii_of_string Datatypes.app] in IH |- *.
    change (n ++ "/"%char :: m ++ path_of names) with (n ++ slash :: m ++ path_of names).
    rewrite split_slash_app_slash, split_no_slash by exact N4.
    cbn [split_slash] in IH. change (is_slash "/") with true in IH. cbn iota in IH. injection IH as ->. reflexivity.
Qed.

Lemma lexical_names cur names : Forall a_file_name names -> lexical cur names = rev names ++ cur.
Proof.
  intros F. revert cur. induction F as [ | n names (N1 & N2 & N3 & N4) F IH ]; intros cur; [reflexivity|].
  change (n :: names) with ([n] ++ names). rewrite lexical_app, (lexical_normal _ n), IH.
  - cbn [Datatypes.app rev]. rewrite <- app_assoc. reflexivity.
  - repeat split; assumption.
Qed.

Lemma home_place cwd names file : names <> [] -> Forall a_file_name names -> a_file_name file ->
  place cwd (join_path [settings_dir (path_of names); file]) = rev (names ++ [b ".config"; b "1pass"; file]).
Proof.
  intros Hn F Hf.
  assert (P : path_of names <> []) by (destruct names; [congruence|discriminate]).
  assert (R : rooted (path_of names) = true) by (destruct names; [congruence|reflexivity]).
  assert (A : a_file_name (b ".config") /\ a_file_name (b "1pass")).
  { split; repeat split; try discriminate; cbn; intuition discriminate. }
  rewrite place_join.
  - unfold settings_dir. rewrite join_path_cons by exact P. rewrite place_clean.
    2:{ destruct (path_of names); [congruence|discriminate]. }
    unfold place. replace (rooted (join_slash [path_of names; b ".config"; b "1pass"])) with true.
    2:{ destruct (path_of names); [congruence|symmetry; exact R]. }
    change (join_slash [path_of names; b ".config"; b "1pass"]) with (path_of names ++ slash :: b ".config/1pass").
    rewrite split_slash_app_slash, split_path_of by exact F.
    change (split_slash (b ".config/1pass")) with [b ".config"; b "1pass"].
    rewrite (split_no_slash file) by apply Hf.
    change (([] :: names) ++ [b ".config"; b "1pass"]) with ([] :: (names ++ [b ".config"; b "1pass"])).
    change (lexical [] ([] :: (names ++ [b ".config"; b "1pass"]))) with (lexical [] (names ++ [b ".config"; b "1pass"])).
    rewrite <- lexical_app, lexical_names, app_nil_r, <- app_assoc; [reflexivity|].
    rewrite <- app_assoc. apply Forall_app. split; [exact F|].
    constructor; [apply A|constructor; [apply A|constructor; [exact Hf|constructor]]].
  - unfold settings_dir. rewrite join_path_cons by exact P. unfold clean.
    replace (rooted (join_slash [path_of names; b ".config"; b "1pass"])) with true; [discriminate|].
    destruct (path_of names); [congruence|symmetry; exact R].
Qed.

(** The world when the program ends, or after the keys of the GUI. *)
Definition last_world (e : ending) : world :=
  match e with Ended w _ => w | InGui g _ => a_world (g_app g) end.

(** Whatever is typed, on the command line or in the GUI, no file is ever changed but the two of
    [$HOME/.config/1pass], unless [update] is among the words.  Places are written from the file up to the root. *)
Theorem C97_own_files : forall s names args w,
  names <> [] -> Forall a_file_name names -> s_home s = path_of names ->
  ~ In (b "update") args -> undisturbed (s_keys s) ->
  ever w (last_world (run s args w)) (same_but [rev (names ++ [b ".config"; b "1pass"; b "lastcheck"]);
                       rev (names ++ [b ".config"; b "1pass"; b "1pass.yml"])] (w_fs w)).
Proof.
  intros s names args w Hn F Hh Hu Hk. remember (run s args w) as e eqn:H. symmetry in H.
  remember (last_world e) as w' eqn:Hw'.
  assert (P : s_home s <> []) by (rewrite Hh; destruct names; [congruence|discriminate]).
  rewrite run_eq in H by exact P.
  assert (A : a_file_name (b "lastcheck") /\ a_file_name (b "1pass.yml")).
  { split; repeat split; try discriminate; cbn; intuition discriminate. }
  assert (S : (exists t, w_trace w' = t ++ w_trace w /\ forall f, ~ In (EFs f) t) -> w_fs w' = w_fs w ->
    ever w w' (same_but [rev (names ++ [b ".config"; b "1pass"; b "lastcheck"]);
                       rev (names ++ [b ".config"; b "1pass"; b "1pass.yml"])] (w_fs w))).
  { intros (t & E & N) D. split; [rewrite D; apply same_start|]. intros f Hx. apply (happened_in w w' t _ E) in Hx. now apply N in Hx. }
  assert (S0 : w' = w -> ever w w' (same_but [rev (names ++ [b ".config"; b "1pass"; b "lastcheck"]);
                       rev (names ++ [b ".config"; b "1pass"; b "1pass.yml"])] (w_fs w))).
  { intros ->. apply S; [|reflexivity]. exists []. split; [reflexivity|]. intros f []. }
  assert (SL : match load_config (s_Y s) (w_disk w) (settings_dir (s_home s)) with
      | Ok _ => let (w', r) := println (s_message s args) w in Ended w' r
      | Panic => Ended w Panic
      | Exit n => Ended w (Exit n)
      end = e -> ever w w' (same_but [rev (names ++ [b ".config"; b "1pass"; b "lastcheck"]);
                       rev (names ++ [b ".config"; b "1pass"; b "1pass.yml"])] (w_fs w))).
  { clear H. destruct (load_config _ _ _); cbn; intros K; subst e; cbn [last_world] in Hw'.
    - subst w'. apply S; [|reflexivity]. eexists [_]. split; [reflexivity|]. intros f [K | []]. discriminate.
    - apply S0. congruence.
    - apply S0. congruence. }
  assert (D : settings_dir (s_home s) <> []).
  { unfold settings_dir. rewrite join_path_cons by exact P. unfold clean.
    replace (rooted (join_slash [s_home s; b ".config"; b "1pass"])) with true; [discriminate|].
    rewrite Hh. destruct names; [congruence|reflexivity]. }
  destruct (read_args args) as [v | c | | ] eqn:E; [ | |exact (SL H)|exact (SL H)].
  - unfold opens in H. fold (settings_dir (s_home s)) in H.
    destruct (gui_process _ _ _ _ _ _ _ _ _ _ w) as [g1 r1] eqn:Pr. subst e. cbn [last_world] in Hw'. subst w'.
    assert (G := proj1 (C82_only_own_files _ _ _ _ _ _ _ _ _ _ w g1 r1 D Hk Pr)).
    unfold last_check_place, check_file, settings_place in G. rewrite Hh in G.
    rewrite (home_place _ names last_check_file), (home_place _ names (b "1pass.yml")) in G; tauto.
  - assert (Hc : c <> CmdUpdate).
    { intros ->. apply Hu. unfold read_args in E. destruct (strip_flags root_flags args) as [ | n l ] eqn:St.
      - unfold execute_root in E. destruct (parse_args _ args) as [[l a] | ]; [|discriminate].
        destruct (truth_of help_flag l); discriminate.
      - assert (I1 := strip_in root_flags _ args n l (le_n _) St).
        destruct (mget n sub_names) as [x | ] eqn:M; [|discriminate].
        assert (X : x = SUpdate).
        { unfold execute_sub in E.
          destruct x; try reflexivity;
            try (destruct (parse_args _ _) as [[l1 a1] | ]; [|discriminate]; destruct (truth_of help_flag l1); [discriminate|]);
            cbn [run_sub] in E; try discriminate;
            repeat match type of E with context [match ?a with [] => _ | _ :: _ => _ end] => destruct a end; discriminate. }
        subst x. revert M. unfold sub_names. cbn [mget].
        destruct (bytes_eqb n (b "update")) eqn:En; [apply bytes_eqb_eq in En; subst n; intros _; exact I1|].
        repeat match goal with |- context [bytes_eqb n ?y] => destruct (bytes_eqb n y) end; discriminate. }
    unfold runs in H. fold (settings_dir (s_home s)) in H.
    destruct (process _ _ _ _ _ _ _ _ c w) as [w1 r1] eqn:Pr. subst e. cbn [last_world] in Hw'. subst w'.
    assert (G := C78_only_own_files _ _ _ _ _ _ _ _ c w w1 r1 D Hc Pr).
    unfold last_check_place, check_file, settings_place in G. rewrite Hh in G.
    rewrite (home_place _ names last_check_file), (home_place _ names (b "1pass.yml")) in G; tauto.
Qed.
Print Assumptions C97_own_files.

(** [list] in the home of ann, with notifications on by default, makes the directories and notes the time of its check. *)
Example C97_example :
  s_home (demo_setup (fun _ => [])) = path_of [b "home"; b "ann"] /\ Forall a_file_name [b "home"; b "ann"] /\
  exists w' r, run (demo_setup (fun _ => [])) [b "categories"] (cli_world [NetBody demo_release true] []) = Ended w' r /\
    fs_get (w_fs w') [b "lastcheck"; b "1pass"; b ".config"; b "ann"; b "home"] <> None.
Proof.
  split; [reflexivity|]. split.
  - repeat (constructor; [repeat split; try discriminate; cbn; intuition discriminate|]). constructor.
  - eexists. eexists. split; [vm_compute; reflexivity|vm_compute; discriminate].
Qed.
