(** What is shown of an item: the window and the commands show the same text (C107), and what stored texts can do to the
    terminal (C108).  Vaults, items, settings and histories of the window are arbitrary. *)
From Verif Require Import Base Utf8 GoStrings GoStringsProof Base64 Float64 Json Spec_Json JsonPrint Spec_Civil CivilProof Spec_Item Civil Crypto CryptoProof Path Fs FsProof Domain DomainProof Repos Session SessionProof
  World WorldProof Config Updater Cli CliProof CliEvents Spec_Vault Spec_Writer Spec_Domain VaultProof WriterProof Toy ToyYaml Gui Spec_Gui GuiProof GuiRun.
From Verif Require Import Properties_Vault Properties_Session Properties_Update Properties_Check Properties_Cli Properties_Show Properties_End Properties_Gui Properties_Gui2 Properties_Item Properties_Stored.
Local Notation newline := World.newline.

(** ** Specification *)

(** All that a command wrote to the terminal, in one piece. *)
Definition wrote (w w' : world) (text : bytes) : Prop := exists new, screen w' = screen w ++ new /\ concat new = text.

(** [t] occurs in [text]. *)
Definition occurs (t text : bytes) : Prop := exists x y, text = x ++ t ++ y.

(** Bytes a terminal does not print but obeys. *)
Definition control (c : ascii) : Prop := (vb c < 32)%N \/ vb c = 127%N.
Definition harmless (t : bytes) : Prop := Forall (fun c => ~ control c) t.

(** The texts of an item that come from the vault. *)
Definition texts_of (i : item) : list bytes :=
  it_title i :: it_url i :: it_notes i ::
  flat_map (fun s => sec_title s :: flat_map (fun f => [fld_name f; fld_value f]) (sec_fields s)) (it_sections i).

(** ** Lemmas *)

(** What the commands print, in one piece. *)
Definition printed (tz : Z -> Z) (i : item) : bytes := concat (map (fun l => l ++ newline) (item_lines tz false i)).

Lemma printed_text tz i : exists rest, printed tz i = newline ++ full_text tz i ++ rest /\
  rest = match it_notes i with [] => [] | _ => newline end.
Proof.
  unfold printed, full_text, item_lines, Gui.details_lines, join_lines. change nl with newline.
  set (url := match it_url i with [] => [] | _ => _ end). set (secs := match it_sections i with [] => [] | _ => _ end).
  set (top := match it_sections i with [] => [[]] | _ => [] end).
  eexists. split; [|reflexivity].
  assert (E : concat (map (fun l => l ++ newline) (match it_notes i with [] => [] | _ => top ++ [b "Notes"; dashes; it_notes i; []] end)) =
    concat (map (fun l => l ++ newline) (match it_notes i with [] => [] | _ => top ++ [b "Notes"; dashes; it_notes i] end)) ++
    match it_notes i with [] => [] | _ => newline end).
  { destruct (it_notes i) as [|x y]; [reflexivity|]. rewrite !map_app, !concat_app. cbn [map concat]. rewrite <- !app_assoc. reflexivity. }
  rewrite !map_app, !concat_app, E. cbn [map concat]. rewrite <- !app_assoc. cbn [Datatypes.app]. reflexivity.
Qed.

(** What the two commands print of a stored item. *)
Lemma wrote_stored C U (HC : crypto_ok C) (HU : unicode_ok U) tz O Y T render dir v mk w m items i :
  oracles_ok O -> quiet_process Y dir w m -> user_opens C U tz w (vault_in_use v m) items -> In i items ->
  wrote w (fst (process C U tz O Y T render dir ((if mk : bool then CmdOverview else CmdDetails) v (it_uid i) (it_trashed i)) w))
    (b "Password:" ++ newline ++ printed tz (if mk then masked i else i)).
Proof.
  intros HO Hq Hu Hin. set (c := (if mk then CmdOverview else CmdDetails) v (it_uid i) (it_trashed i)).
  destruct (process C U tz O Y T render dir c w) as [w' r] eqn:H. cbn [fst].
  destruct (shown_stored C U HC HU tz O Y T render dir c v mk (it_uid i) (it_trashed i) w w' r m items HO
    ltac:(unfold c; destruct mk; auto) Hq Hu H) as (_ & _ & s & Hh & E).
  apply Hh in Hin. unfold held in Hin. rewrite Hin in E. eexists. split; [exact E|]. cbn [concat].
  assert (L : item_lines tz mk i = item_lines tz false (if mk then masked i else i)) by (destruct mk; [apply masked_lines|reflexivity]).
  rewrite L, <- app_assoc. reflexivity.
Qed.

(** ** C107 *)

(** The window shows of a revealed item what details prints of it, and of a selected one what overview prints of it:
    the commands print an empty line before it, and one after it when there are notes. *)
Theorem C107_same_text : forall C U, crypto_ok C -> unicode_ok U ->
  forall tz O Y Y' T render dir dir' center v w m items i g,
  oracles_ok O -> quiet_process Y dir w m -> user_opens C U tz w (vault_in_use v m) items -> In i items ->
  running C U tz Y' dir' center g -> held (session g) i -> chosen_row g = Some (row_of i) ->
  exists text rest, (rest = [] \/ rest = newline) /\
  (current g = VDetails -> shown g VDetails = Some text /\
     wrote w (fst (process C U tz O Y T render dir (CmdDetails v (it_uid i) (it_trashed i)) w))
       (b "Password:" ++ newline ++ newline ++ text ++ rest)) /\
  (current g <> VDetails -> shown g VDetails <> None -> shown g VDetails = Some text /\
     wrote w (fst (process C U tz O Y T render dir (CmdOverview v (it_uid i) (it_trashed i)) w))
       (b "Password:" ++ newline ++ newline ++ text ++ rest)).
Proof.
  intros C U HC HU tz O Y Y' T render dir dir' center v w m items i g HO Hq Hu Hin R Hh Hrow.
  assert (Same : forall j, held (session g) j -> chosen_row g = Some (row_of j) -> j = i).
  { intros j Hj E. rewrite Hrow in E. unfold row_of in E. injection E as _ _ E2 E1. unfold held in Hh, Hj. rewrite E1, E2, Hj in Hh. congruence. }
  set (mk := match current g with VDetails => false | _ => true end).
  assert (W := wrote_stored C U HC HU tz O Y T render dir v mk w m items i HO Hq Hu Hin).
  destruct (printed_text tz (if mk then masked i else i)) as (rest & E & Er). rewrite E in W.
  exists (full_text tz (if mk then masked i else i)), rest. split.
  { rewrite Er. destruct (it_notes _); auto. }
  split.
  - intros Hc. destruct (C72_revealed_item C U tz Y' dir' center g R Hc) as (j & Hj & Hr & Hs). apply Same in Hr; [|exact Hj]. subst j.
    unfold mk in *. rewrite Hc in *. split; [exact Hs|exact W].
  - intros Hc Hv. assert (Hmk : mk = true) by (unfold mk; destruct (current g); congruence). rewrite Hmk in *.
    destruct (C72_masked_unless_revealed C U tz Y' dir' center g R Hc) as [D|[[_ D]|(j & Hj & Hr & Hs)]]; [congruence|congruence|].
    apply Same in Hr; [|exact Hj]. subst j. split; [exact Hs|exact W].
Qed.
Print Assumptions C107_same_text.

(** The card of the examples, selected and revealed in the window, and a process that opens the same vault. *)
Definition visa : item := MkItem (Cat (b "002") (b "Credit Card")) 1300000001 [] (b "Visa") false
  [MkSection (b "Main") [MkField (b "Pin") (b "1234")]] (b "BB") [] 1400000001.

Example C107_example :
  quiet_process toy_yaml (b "/c") (vault_world (b "/v") [b "freddy"]) (Some (off_settings (b "/v"))) /\
  user_opens toy_crypto latin1 utc (vault_world (b "/v") [b "freddy"]) (vault_in_use [] (Some (off_settings (b "/v")))) demo_items /\ In visa demo_items /\
  let g := fst (demo_gui (vault_world (b "/v") []) (enter_freddy ++ [Press KEnter; Press KDown; Press KTab])) in
  demo_running g /\ held (session g) visa /\ chosen_row g = Some (row_of visa) /\ current g = VDetails.
Proof.
  split; [apply C81_example|]. split; [apply demo_opens|]. split; [right; right; now left|].
  split; [apply demo_runs; vm_compute; reflexivity|]. split; [vm_compute; reflexivity|]. split; vm_compute; reflexivity.
Qed.

(** ** C108 *)

Lemma harmless_app x y : harmless (x ++ y) <-> harmless x /\ harmless y.
Proof. apply Forall_app. Qed.

Lemma harmless_check t : forallb (fun c => (32 <=? vb c)%N && negb (vb c =? 127)%N) t = true -> harmless t.
Proof.
  intros H. apply Forall_forall. intros c Hc. rewrite forallb_forall in H. specialize (H c Hc). apply andb_true_iff in H. destruct H as [H1 H2].
  apply N.leb_le in H1. apply negb_true_iff, N.eqb_neq in H2. unfold control. lia.
Qed.

Lemma harmless_digits n : harmless (dec_of_N n).
Proof.
  apply Forall_forall. intros c Hc. assert (H := dec_of_N_digits n). rewrite forallb_forall in H. specialize (H c Hc).
  unfold is_digit, in_range in H. apply andb_true_iff in H. destruct H as [H1 H2]. apply N.leb_le in H1, H2. unfold control. lia.
Qed.

Lemma harmless_pad n z : harmless (pad_int n z).
Proof.
  unfold pad_int. apply harmless_app. split; [destruct (z <? 0)%Z; apply harmless_check; reflexivity|]. apply harmless_app. split; [|apply harmless_digits].
  apply Forall_forall. intros c Hc. apply repeat_spec in Hc. subst c. unfold control. cbn. lia.
Qed.

Lemma harmless_cons c t : ~ control c -> harmless t -> harmless (c :: t).
Proof. now constructor. Qed.

Lemma harmless_time tz u : harmless (format_time tz u).
Proof.
  unfold format_time, format_date, fmt_date. destruct (civil (u + tz u)) as [[y mo] d].
  repeat first [apply harmless_pad | apply harmless_cons; [unfold control; cbn; lia|] | apply harmless_app; split].
Qed.

Lemma harmless_published code name : In (code, name) published -> harmless name.
Proof.
  intros H. assert (G : forallb (fun p => forallb (fun c => (32 <=? vb c)%N && negb (vb c =? 127)%N) (snd p)) published = true) by reflexivity.
  rewrite forallb_forall in G. apply harmless_check, (G _ H).
Qed.

(** The items of a vault have published categories. *)
Lemma stored_cat C U tz w path items i : user_opens C U tz w path items -> In i items -> In (cat_code (it_cat i), cat_name (it_cat i)) published.
Proof.
  intros (p & ks & rest & _ & [(L & pr & bands & _ & _ & _ & _ & _ & Hi)]) Hin.
  induction Hi as [|uid e j ms l He Hi IH|uid e ms l He Hi IH]; [destruct Hin| |auto]. destruct Hin as [->|Hin]; [apply (en_cat _ _ _ _ _ _ _ _ He)|auto].
Qed.

(** Harmless but for the ends of the lines. *)
Definition calm_text (t : bytes) : Prop := Forall (fun c => control c -> In c newline) t.

Lemma calm_app x y : calm_text (x ++ y) <-> calm_text x /\ calm_text y.
Proof. apply Forall_app. Qed.
Lemma calm_harmless t : harmless t -> calm_text t.
Proof. apply Forall_impl. tauto. Qed.
Lemma calm_nl : calm_text newline.
Proof. apply Forall_forall. auto. Qed.
Lemma calm_known t : forallb (fun c => (32 <=? vb c)%N && negb (vb c =? 127)%N) t = true -> calm_text t.
Proof. intros H. now apply calm_harmless, harmless_check. Qed.

Lemma calm_lines ls : Forall calm_text ls -> calm_text (concat (map (fun l => l ++ newline) ls)).
Proof. induction 1 as [|l ls H _ IH]; [constructor|]. cbn [map concat]. apply calm_app. split; [apply calm_app; split; [exact H|apply calm_nl]|exact IH]. Qed.

Lemma calm_nil : calm_text [].
Proof. constructor. Qed.

Local Opaque calm_text.
Lemma calm_printed tz i : harmless (cat_name (it_cat i)) -> Forall harmless (texts_of i) -> calm_text (printed tz i).
Proof.
  intros Hcat Ht. rewrite Forall_forall in Ht. assert (T : forall t, In t (texts_of i) -> calm_text t) by (intros t H; apply calm_harmless, Ht, H).
  assert (Dash : calm_text dashes) by (apply calm_known; reflexivity).
  apply calm_lines. unfold item_lines. change nl with newline. apply Forall_app. split.
  { repeat apply Forall_cons; try apply Forall_nil; try apply calm_nil; try assumption.
    - apply calm_harmless, Hcat.
    - apply T. now left.
    - repeat first [apply calm_harmless, harmless_time | apply calm_nl | apply calm_known; destruct (it_trashed i); reflexivity | apply calm_known; reflexivity | apply calm_app; split]. }
  apply Forall_app. split.
  { destruct (it_url i) as [|x y] eqn:E; [constructor|]. rewrite <- E. constructor; [|constructor]. apply calm_app.
    split; [apply calm_known; reflexivity|]. apply T. right. now left. }
  apply Forall_app. split.
  - assert (S : Forall calm_text (flat_map section_lines (it_sections i) ++ [[]])).
    { apply Forall_app. split; [|apply Forall_cons; [apply calm_nil|apply Forall_nil]]. apply Forall_forall. intros l Hl. apply in_flat_map in Hl. destruct Hl as (s & Hs & Hl).
      assert (Ts : forall t, In t (sec_title s :: flat_map (fun f => [fld_name f; fld_value f]) (sec_fields s)) -> calm_text t).
      { intros t H. apply T. do 3 right. apply in_flat_map. eauto. }
      unfold section_lines in Hl. destruct Hl as [<-|Hl]; [apply calm_nil|]. apply in_app_or in Hl. destruct Hl as [Hl|Hl].
      + destruct (sec_title s) as [|x y] eqn:E; [destruct Hl|]. destruct Hl as [<-|[]]. apply Ts. now left.
      + destruct Hl as [<-|Hl]; [exact Dash|]. apply in_map_iff in Hl. destruct Hl as (f & <- & Hf).
        assert (Tf : forall t, In t [fld_name f; fld_value f] -> calm_text t) by (intros t H; apply Ts; right; apply in_flat_map; eauto).
        apply calm_app. split; [apply Tf; now left|]. apply calm_app. split; [apply calm_known; reflexivity|]. apply Tf. right. now left. }
    destruct (it_sections i) eqn:E; [constructor|]. exact S.
  - destruct (it_notes i) as [|x y] eqn:E; [constructor|]. rewrite <- E. apply Forall_app. split; [destruct (it_sections i); [apply Forall_cons; [apply calm_nil|]|]; apply Forall_nil|].
    repeat apply Forall_cons; try apply Forall_nil; try apply calm_nil; try assumption; [apply calm_known; reflexivity|]. apply T. right. right. now left.
Qed.
Local Transparent calm_text.

(** When no text of a stored item contains a byte the terminal obeys, all that details prints of it is printed by the
    terminal as it is, but for the ends of the lines; overview only needs this of the texts that are not secret.  Without
    the condition it does not hold: see below. *)
Theorem C108_harmless_text_partial : forall C U, crypto_ok C -> unicode_ok U ->
  forall tz O Y T render dir v w m items i,
  oracles_ok O -> quiet_process Y dir w m -> user_opens C U tz w (vault_in_use v m) items -> In i items ->
  (Forall harmless (texts_of i) -> exists text,
     wrote w (fst (process C U tz O Y T render dir (CmdDetails v (it_uid i) (it_trashed i)) w)) text /\
     forall c, In c text -> control c -> In c newline) /\
  (Forall harmless (texts_of (masked i)) -> exists text,
     wrote w (fst (process C U tz O Y T render dir (CmdOverview v (it_uid i) (it_trashed i)) w)) text /\
     forall c, In c text -> control c -> In c newline).
Proof.
  intros C U HC HU tz O Y T render dir v w m items i HO Hq Hu Hin.
  assert (Hcat := stored_cat _ _ _ _ _ _ _ Hu Hin). apply harmless_published in Hcat.
  assert (G : forall mk, Forall harmless (texts_of (if mk : bool then masked i else i)) -> exists text,
     wrote w (fst (process C U tz O Y T render dir ((if mk then CmdOverview else CmdDetails) v (it_uid i) (it_trashed i)) w)) text /\
     forall c, In c text -> control c -> In c newline).
  { intros mk Ht. eexists. split; [exact (wrote_stored C U HC HU tz O Y T render dir v mk w m items i HO Hq Hu Hin)|].
    assert (F : calm_text (b "Password:" ++ newline ++ printed tz (if mk then masked i else i))).
    { apply calm_app. split; [apply calm_known; reflexivity|]. apply calm_app. split; [apply calm_nl|]. apply calm_printed; [|exact Ht]. destruct mk; exact Hcat. }
    exact (proj1 (Forall_forall _ _) F). }
  split; [exact (G false)|exact (G true)].
Qed.
Print Assumptions C108_harmless_text_partial.

Example C108_example : In visa demo_items /\ Forall harmless (texts_of visa) /\ Forall harmless (texts_of (masked visa)) /\
  quiet_process toy_yaml (b "/c") (vault_world (b "/v") [b "freddy"]) (Some (off_settings (b "/v"))) /\
  user_opens toy_crypto latin1 utc (vault_world (b "/v") [b "freddy"]) (vault_in_use [] (Some (off_settings (b "/v")))) demo_items.
Proof.
  split; [right; right; now left|]. split; [|split; [|split; [apply C81_example|apply demo_opens]]];
    (apply Forall_forall; intros t H; cbn in H; repeat destruct H as [<-|H]; try (apply harmless_check; reflexivity); destruct H).
Qed.

(** What is printed of the texts of an item. *)
Lemma occurs_line t ls : In t ls -> occurs t (concat (map (fun l => l ++ newline) ls)).
Proof.
  intros H. apply in_split in H. destruct H as (x & y & ->). exists (concat (map (fun l => l ++ newline) x)), (newline ++ concat (map (fun l => l ++ newline) y)).
  rewrite map_app, concat_app. cbn [map concat]. now rewrite <- !app_assoc.
Qed.
Lemma occurs_trans x y z : occurs x y -> occurs y z -> occurs x z.
Proof. intros (a & c & ->) (d & e & ->). exists (d ++ a), (c ++ e). now rewrite <- !app_assoc. Qed.
Lemma occurs_nil t : occurs [] t.
Proof. now exists [], t. Qed.
Lemma occurs_right x y t : occurs t y -> occurs t (x ++ y).
Proof. intros (a & c & ->). exists (x ++ a), c. now rewrite <- app_assoc. Qed.
Lemma occurs_left x y t : occurs t x -> occurs t (x ++ y).
Proof. intros (a & c & ->). exists a, (c ++ y). now rewrite <- !app_assoc. Qed.
Lemma occurs_self t : occurs t t.
Proof. exists [], []. now rewrite app_nil_r. Qed.

Lemma text_printed tz i t : In t (texts_of i) -> occurs t (printed tz i).
Proof.
  assert (L : forall l, In l (item_lines tz false i) -> occurs t l -> occurs t (printed tz i)).
  { intros l Hl Ho. eapply occurs_trans; [exact Ho|]. now apply occurs_line. }
  destruct (details_lines tz i) as (head & tail & E & Htitle & _ & Hurl & Hnotes).
  rewrite E in L. intros [<-|[<-|[<-|H]]].
  - apply (L (it_title i)); [apply in_or_app; now left|apply occurs_self].
  - destruct (it_url i) as [|x y] eqn:Eu; [apply occurs_nil|]. rewrite <- Eu in *. apply (L (b "URL: " ++ it_url i)); [|apply occurs_right, occurs_self].
    apply in_or_app. left. apply Hurl. congruence.
  - destruct (it_notes i) as [|x y] eqn:Eu; [apply occurs_nil|]. rewrite <- Eu in *.
    apply (L (it_notes i)); [|apply occurs_self]. destruct (Hnotes ltac:(congruence)) as (x' & y' & ->). apply in_or_app. right. apply in_or_app. right.
    apply in_or_app. right. right. right. now left.
  - apply in_flat_map in H. destruct H as (s & Hs & Ht).
    assert (Ls : forall l, In l (section_lines s) -> occurs t l -> occurs t (printed tz i)).
    { intros l Hl. apply L. apply in_or_app. right. apply in_or_app. left. apply in_flat_map. eauto. }
    destruct Ht as [<-|Ht].
    + destruct (sec_title s) as [|x y] eqn:Eu; [apply occurs_nil|]. rewrite <- Eu in *. apply (Ls (sec_title s)); [|apply occurs_self].
      unfold section_lines. rewrite Eu. right. now left.
    + apply in_flat_map in Ht. destruct Ht as (f & Hf & Ht). apply (Ls (fld_name f ++ b ": " ++ fld_value f)).
      * unfold section_lines. right. apply in_or_app. right. right. apply in_map_iff. eauto.
      * destruct Ht as [<-|[<-|[]]]; [apply occurs_left, occurs_self|apply occurs_right, occurs_right, occurs_self].
Qed.

(** Every text of a stored item is printed byte for byte, whatever bytes it has: by details all of them, by overview those
    that are not secret. *)
Theorem C108_texts_as_they_are : forall C U, crypto_ok C -> unicode_ok U ->
  forall tz O Y T render dir v w m items i,
  oracles_ok O -> quiet_process Y dir w m -> user_opens C U tz w (vault_in_use v m) items -> In i items ->
  (exists text, wrote w (fst (process C U tz O Y T render dir (CmdDetails v (it_uid i) (it_trashed i)) w)) text /\
     forall t, In t (texts_of i) -> occurs t text) /\
  (exists text, wrote w (fst (process C U tz O Y T render dir (CmdOverview v (it_uid i) (it_trashed i)) w)) text /\
     forall t, In t (texts_of (masked i)) -> occurs t text).
Proof.
  intros C U HC HU tz O Y T render dir v w m items i HO Hq Hu Hin.
  assert (G : forall mk, exists text,
     wrote w (fst (process C U tz O Y T render dir ((if mk : bool then CmdOverview else CmdDetails) v (it_uid i) (it_trashed i)) w)) text /\
     forall t, In t (texts_of (if mk then masked i else i)) -> occurs t text).
  { intros mk. eexists. split; [exact (wrote_stored C U HC HU tz O Y T render dir v mk w m items i HO Hq Hu Hin)|].
    intros t Ht. apply occurs_right, occurs_right, text_printed, Ht. }
  split; [exact (G false)|exact (G true)].
Qed.
Print Assumptions C108_texts_as_they_are.

(** A vault whose only item has the title [t]. *)
Definition titled (t : bytes) : stored :=
  MkStored (b "CC") (b "003") 1300000002 1400000002 false [(b "title", JStr t)] [(b "notesPlain", JStr (b "x"))]
    (repeat "c"%char 32) (repeat "C"%char 32).
Definition titled_item (t : bytes) : item := MkItem (Cat (b "003") (b "Secure Note")) 1300000002 (b "x") t false [] (b "CC") [] 1400000002.
Definition titled_disk (C : crypto) (t : bytes) : disk := write_disk C (b "v") (b "freddy") demo_secrets [(b "band_0.js", [titled t])].
Definition titled_world (C : crypto) (t : bytes) : world :=
  set_disk (MkDisk (([b "c"], NDir) ::
     ([config_file; b "c"], NFile (match y_print toy_yaml (off_settings (b "/v")) with Some s => s | None => [] end) 420)
     :: d_fs (titled_disk C t)) [] (fun _ => false))
    (vault_world (b "/v") [b "freddy"]).

Lemma print_rune_length r : length (print_rune r) <= 6 * length (enc_rune r).
Proof.
  assert (H : 1 <= length (enc_rune r)).
  { unfold enc_rune, enc_valid. repeat match goal with |- context [if ?x then _ else _] => destruct x end; cbn; lia. }
  unfold print_rune. repeat match goal with |- context [if ?x then _ else _] => destruct x end; cbn [length b list_ascii_of_string]; try lia; cbn; lia.
Qed.

Lemma print_str_length t : valid_utf8 t -> length (print_str t) <= 6 * length t + 2.
Proof.
  intros (rs & Hrs & ->). unfold print_str. rewrite utf8_decode_encode by exact Hrs. cbn [length]. rewrite app_length. cbn [length].
  assert (G : length (flat_map print_rune rs) <= 6 * length (utf8_encode rs)); [|lia].
  clear Hrs. induction rs as [|r rs IH]; [cbn; lia|]. cbn [flat_map utf8_encode]. rewrite !app_length. assert (L := print_rune_length r). lia.
Qed.

Lemma titled_vault C U tz t : crypto_ok C -> valid_utf8 t -> (N.of_nat (length t) < 1000000000000000000)%N ->
  vault_at C U tz (titled_disk C t) (b "/v") (b "freddy") (keys_of C (b "freddy") demo_secrets) [titled_item t].
Proof.
  intros HC Ht Hl.
  assert (W := written_vault C HC U tz (b "v") demo_dir_plain (b "freddy") demo_secrets [(b "band_0.js", [titled t])] [titled_item t]).
  unfold titled_disk. apply W; clear W.
  - repeat (constructor; [vm_compute; intuition discriminate|]). constructor.
  - exact demo_secrets_ok.
  - constructor.
    + repeat constructor.
    + apply Forall_cons; [|constructor]. split; [|discriminate]. apply (demo_name (b "0")). vm_compute. intuition discriminate.
    + apply nodupb_ok. reflexivity.
    + apply Forall_cons; [|constructor]. constructor;
        [ apply ascii_valid_utf8; reflexivity | simpl; auto 8 | unfold in_2_53; simpl; lia
        | unfold in_2_53; simpl; lia | split; reflexivity | | ].
      * exists 5. split; [vm_compute; discriminate|]. split; [|printables].
        apply pr_obj; [apply nodupb_ok; reflexivity|]. apply Forall_cons; [|apply Forall_nil]. split; [apply ascii_valid_utf8; reflexivity|]. now apply pr_str.
      * split; [|reflexivity]. cbn [titled w_overview print_json map fst snd commas]. assert (L := print_str_length t Ht).
        cbn [length]. rewrite !app_length. cbn [length]. change (length (print_str (b "title"))) with 7. lia.
  - cbn [concat map snd Datatypes.app]. apply Forall2_cons; [|constructor].
    constructor; try (split; [reflexivity|]); try reflexivity; try (simpl; auto 8; fail);
      try (right; reflexivity); try (left; split; [left; reflexivity|reflexivity]).
    apply shows_body_none; left; reflexivity.
Qed.

Lemma titled_opens C U tz t : crypto_ok C -> valid_utf8 t -> (N.of_nat (length t) < 1000000000000000000)%N ->
  quiet_process toy_yaml (b "/c") (titled_world C t) (Some (off_settings (b "/v"))) /\
  user_opens C U tz (titled_world C t) (vault_in_use [] (Some (off_settings (b "/v")))) [titled_item t].
Proof.
  intros HC Ht Hl. assert (V := titled_vault C U tz t HC Ht Hl). unfold titled_world. set (D := titled_disk C t) in *.
  assert (HD : exists pt bt, D = put_disk (b "v") pt [(b "band_0.js", bt)]) by (eexists; eexists; reflexivity).
  clearbody D. destruct HD as (pt & bt & ->).
  split.
  - split; [vm_compute; reflexivity|]. eexists. split; [|left]; vm_compute; reflexivity.
  - exists (b "freddy"), (keys_of C (b "freddy") demo_secrets), []. split; [reflexivity|].
    apply (vault_same _ _ _ _ _ _ _ _ _ _ V).
    intros L HL. vm_compute in HL. assert (L = [b "v"]) by (vm_compute; congruence). subst L. split; [vm_compute; reflexivity|].
    intros k Hk. split; [|reflexivity]. cbn [set_disk w_disk d_fs].
      assert (Hc : k <> [b "c"] /\ k <> [config_file; b "c"]).
      { destruct Hk as [->|[->|[n ->]]]; split; discriminate. }
      assert (Hnil : k <> []) by (destruct Hk as [->|[->|[n ->]]]; discriminate).
      destruct k as [|x k]; [congruence|]. unfold fs_get. cbn [find fst].
      destruct Hc as [H1 H2]. apply not_eq_sym in H1, H2. apply loc_eqb_neq in H1, H2. rewrite H1, H2. reflexivity.
Qed.

(** So stored texts control the terminal: for every text there is a vault with one item, whose title it is, such that
    already overview prints the text byte for byte, whatever bytes it has. *)
Theorem C108_any_text_refuted : forall C U, crypto_ok C -> unicode_ok U ->
  forall tz O T render t, oracles_ok O -> valid_utf8 t -> (N.of_nat (length t) < 1000000000000000000)%N ->
  exists w m i, quiet_process toy_yaml (b "/c") w m /\ user_opens C U tz w (vault_in_use [] m) [i] /\ it_title i = t /\
  exists text, wrote w (fst (process C U tz O toy_yaml T render (b "/c") (CmdOverview [] (it_uid i) (it_trashed i)) w)) text /\ occurs t text.
Proof.
  intros C U HC HU tz O T render t HO Ht Hl. destruct (titled_opens C U tz t HC Ht Hl) as [Hq Hu].
  exists (titled_world C t), (Some (off_settings (b "/v"))), (titled_item t). split; [exact Hq|]. split; [exact Hu|]. split; [reflexivity|].
  destruct (C108_texts_as_they_are C U HC HU tz O toy_yaml T render (b "/c") [] _ _ _ _ HO Hq Hu (or_introl eq_refl)) as (_ & text & Hw & Ho).
  exists text. split; [exact Hw|]. apply Ho. now left.
Qed.
Print Assumptions C108_any_text_refuted.

(** A title that clears the screen and names the window. *)
Definition escape_text : bytes := "027"%char :: b "[2J" ++ "027"%char :: b "]0;hello" ++ ["007"%char].

Example C108_any_text_example : crypto_ok toy_crypto /\ unicode_ok latin1 /\ valid_utf8 escape_text /\
  (N.of_nat (length escape_text) < 1000000000000000000)%N /\ ~ harmless escape_text.
Proof.
  split; [exact toy_crypto_ok|]. split; [exact latin1_ok|]. split; [apply ascii_valid_utf8; reflexivity|]. split; [reflexivity|].
  intros H. inversion H as [|? ? Hc _]; subst. apply Hc. left. reflexivity.
Qed.
