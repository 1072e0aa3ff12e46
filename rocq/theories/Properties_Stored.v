(** The commands overview and details on a vault that is stored on the disk, from the start of the process to its end (C65, C90, C93).
    Vaults, items, settings and time zones are arbitrary. *)
From Verif Require Import Base Utf8 GoStrings Json Spec_Civil Spec_Item Civil Crypto Path Fs FsProof Domain DomainProof Repos Session SessionProof
  World WorldProof Config Updater Cli CliProof CliEvents Spec_Vault Spec_Writer Spec_Domain JsonProof CryptoProof VaultProof WriterProof Toy ToyYaml.
From Verif Require Import Properties_Session Properties_Cli Properties_Show Properties_End Properties_Item.
Local Notation newline := World.newline.

(** ** Lemmas *)

(** What the two commands show. *)
Lemma shown_stored C U (HC : crypto_ok C) (HU : unicode_ok U) tz O Y T render dir c v mk uid trashed w w' r m items :
  oracles_ok O -> (c = CmdOverview v uid trashed /\ mk = true \/ c = CmdDetails v uid trashed /\ mk = false) ->
  quiet_process Y dir w m -> user_opens C U tz w (vault_in_use v m) items ->
  process C U tz O Y T render dir c w = (w', r) ->
  r = Ok tt /\ w_disk w' = w_disk w /\ exists s, (forall i, held s i <-> In i items) /\
  screen w' = screen w ++ (b "Password:" ++ newline) :: map (fun l => l ++ newline)
    (match get_item uid trashed s with
     | Some i => item_lines tz mk i
     | None => [b "Item with UID " ++ uid ++ b " do not exist"]
     end).
Proof.
  intros HO Hc Hq Hu H.
  assert (Hflag : flag_of c = Some v) by (destruct Hc as [[-> _]|[-> _]]; reflexivity).
  destruct (quiet_open C U HC HU tz O Y T render dir c v w m items HO Hflag Hq Hu)
    as (s & D & path & password & Hr & (ks & Hv) & Hrun).
  destruct (Hrun w' r H) as (a & Hf & Hfr & Hs & Hsc & Hd). clear Hrun H.
  destruct (quiet_items C U HC HU tz O D path password ks items s HO Hv Hr) as [Hreach Hheld].
  assert (E : finish U tz O render c a =
    match get_item uid trashed s with
    | Some i => (MkApp (fold_left (fun w l => add_event (EOut (l ++ newline)) w) (item_lines tz mk i) (a_world a)) (a_conf a) (a_vault a), Ok tt)
    | None => (MkApp (add_event (EOut ((b "Item with UID " ++ uid ++ b " do not exist") ++ newline)) (a_world a)) (a_conf a) (a_vault a), Ok tt)
    end).
  { rewrite <- Hs. destruct Hc as [[-> ->]|[-> ->]]; cbn [finish]; apply finish_item. }
  rewrite E in Hf, Hfr. destruct (get_item uid trashed s) as [i|] eqn:Ei; cbn [fst snd a_world] in Hf, Hfr; subst r w'.
  - split; [reflexivity|]. split.
    + rewrite <- Hd. generalize (item_lines tz mk i). intros ls. generalize (a_world a).
      induction ls as [|l ls IH]; intros w0; [reflexivity|]. cbn [fold_left]. now rewrite IH.
    + exists s. split; [exact Hheld|]. rewrite Ei, screen_lines, Hsc, <- app_assoc. reflexivity.
  - split; [reflexivity|]. split; [exact Hd|]. exists s. split; [exact Hheld|]. rewrite Ei, screen_event, Hsc, <- app_assoc. reflexivity.
Qed.

Lemma find_first_fields uid trashed l i : find_first uid trashed l = Some i -> it_uid i = uid /\ it_trashed i = trashed.
Proof.
  unfold find_first. intros H. apply find_some in H. destruct H as [_ H]. apply andb_true_iff in H. destruct H as [H1 H2].
  apply bytes_eqb_eq in H1. apply eqb_prop in H2. auto.
Qed.

(** ** C65 *)

(** overview of an item shows what details shows of the same item with every secret replaced by asterisks. *)
Theorem C65_overview_of_stored_item : forall C U, crypto_ok C -> unicode_ok U ->
  forall tz O O' Y T render dir v w1 w2 m1 m2 items1 items2 i,
  oracles_ok O -> oracles_ok O' ->
  quiet_process Y dir w1 m1 -> user_opens C U tz w1 (vault_in_use v m1) items1 -> In i items1 ->
  quiet_process Y dir w2 m2 -> user_opens C U tz w2 (vault_in_use v m2) items2 -> In (masked i) items2 ->
  screen w1 = screen w2 ->
  screen (fst (process C U tz O Y T render dir (CmdOverview v (it_uid i) (it_trashed i)) w1)) =
  screen (fst (process C U tz O' Y T render dir (CmdDetails v (it_uid i) (it_trashed i)) w2)).
Proof.
  intros C U HC HU tz O O' Y T render dir v w1 w2 m1 m2 items1 items2 i HO HO' Hq1 Hu1 Hi1 Hq2 Hu2 Hi2 Hsc.
  destruct (process C U tz O Y T render dir (CmdOverview v (it_uid i) (it_trashed i)) w1) as [w1' r1] eqn:H1.
  destruct (process C U tz O' Y T render dir (CmdDetails v (it_uid i) (it_trashed i)) w2) as [w2' r2] eqn:H2. cbn [fst].
  destruct (shown_stored C U HC HU tz O Y T render dir _ v true (it_uid i) (it_trashed i) w1 w1' r1 m1 items1 HO
    ltac:(left; split; reflexivity) Hq1 Hu1 H1) as (_ & _ & s1 & Hh1 & ->).
  destruct (shown_stored C U HC HU tz O' Y T render dir _ v false (it_uid i) (it_trashed i) w2 w2' r2 m2 items2 HO'
    ltac:(right; split; reflexivity) Hq2 Hu2 H2) as (_ & _ & s2 & Hh2 & ->).
  apply Hh1 in Hi1. apply Hh2 in Hi2. unfold held in Hi1, Hi2. cbn [masked it_uid it_trashed] in Hi2.
  rewrite Hi1, Hi2, Hsc. rewrite (masked_lines tz i). reflexivity.
Qed.
Print Assumptions C65_overview_of_stored_item.

(** The note of the examples, as it is and covered. *)
Definition covered_note : stored :=
  MkStored (b "CC") (b "003") 1300000002 1400000002 true
    [(b "title", JStr (b "old"))] [(b "notesPlain", JStr (b "**********"))]
    (repeat "c"%char 32) (repeat "C"%char 32).
Definition old_note : item := MkItem (Cat (b "003") (b "Secure Note")) 1300000002 (b "x") (b "old") true [] (b "CC") [] 1400000002.
Definition covered_world : world :=
  set_disk (MkDisk (([b "c"], NDir) ::
     ([config_file; b "c"], NFile (match y_print toy_yaml (off_settings (b "/v")) with Some s => s | None => [] end) 420)
     :: d_fs (write_disk toy_crypto (b "v") (b "freddy") demo_secrets [(b "band_0.js", [covered_note])])) [] (fun _ => false))
    (vault_world (b "/v") [b "freddy"]).

Lemma covered_vault : vault_at toy_crypto latin1 utc (write_disk toy_crypto (b "v") (b "freddy") demo_secrets [(b "band_0.js", [covered_note])])
  (b "/v") (b "freddy") demo_keys [masked old_note].
Proof.
  apply (written_vault toy_crypto toy_crypto_ok latin1 utc (b "v") demo_dir_plain).
  - repeat (constructor; [vm_compute; intuition discriminate|]). constructor.
  - exact demo_secrets_ok.
  - constructor.
    + repeat constructor.
    + apply Forall_cons; [|constructor]. split; [|discriminate]. apply (demo_name (b "0")). vm_compute. intuition discriminate.
    + apply nodupb_ok. reflexivity.
    + apply Forall_cons; [|constructor]. constructor;
        [ apply ascii_valid_utf8; reflexivity | simpl; auto 8 | unfold in_2_53; simpl; lia
        | unfold in_2_53; simpl; lia | split; reflexivity | | split; reflexivity ].
      exists 5. split; [vm_compute; discriminate|]. split; printables.
  - cbn [concat map snd Datatypes.app]. apply Forall2_cons; [|constructor].
    constructor; try (split; [reflexivity|]); try reflexivity; try (simpl; auto 8; fail);
      try (right; reflexivity); try (left; split; [left; reflexivity|reflexivity]).
    apply shows_body_none; left; reflexivity.
Qed.

Example C65_stored_example : In old_note demo_items /\ old_note <> masked old_note /\
  quiet_process toy_yaml (b "/c") covered_world (Some (off_settings (b "/v"))) /\
  user_opens toy_crypto latin1 utc covered_world (vault_in_use [] (Some (off_settings (b "/v")))) [masked old_note].
Proof.
  split; [right; left; reflexivity|]. split; [discriminate|]. split.
  - split; [vm_compute; reflexivity|]. eexists. split; [|left]; vm_compute; reflexivity.
  - exists (b "freddy"), demo_keys, []. split; [reflexivity|].
    apply (vault_same _ _ _ _ (write_disk toy_crypto (b "v") (b "freddy") demo_secrets [(b "band_0.js", [covered_note])])); [exact covered_vault|].
    intros L HL. vm_compute in HL. assert (L = [b "v"]) by (vm_compute; congruence). subst L. split; [vm_compute; reflexivity|].
    intros k Hk. split; [|reflexivity]. unfold covered_world. cbn [set_disk w_disk d_fs].
    assert (Hc : k <> [b "c"] /\ k <> [config_file; b "c"]).
    { destruct Hk as [->|[->|[n ->]]]; split; discriminate. }
    assert (Hnil : k <> []) by (destruct Hk as [->|[->|[n ->]]]; discriminate).
    destruct k as [|x k]; [congruence|]. unfold fs_get. cbn [find fst].
    destruct Hc as [H1 H2]. apply not_eq_sym in H1, H2. apply loc_eqb_neq in H1, H2. rewrite H1, H2. reflexivity.
Qed.

(** ** C90 *)

(** Both commands show when the stored item was changed and created, by the local calendar and clock, and whether
    it is in the trash. *)
Theorem C90_times_of_stored_item : forall C U, crypto_ok C -> unicode_ok U ->
  forall tz O Y T render dir c v w w' r m items i up cr,
  oracles_ok O -> quiet_process Y dir w m -> user_opens C U tz w (vault_in_use v m) items -> In i items ->
  c = CmdOverview v (it_uid i) (it_trashed i) \/ c = CmdDetails v (it_uid i) (it_trashed i) ->
  shows_time tz (it_updated i) up -> shows_time tz (it_created i) cr ->
  process C U tz O Y T render dir c w = (w', r) ->
  exists before after, screen w' = screen w ++ (b "Password:" ++ newline) :: before ++
    (b "Updated: " ++ up ++ newline ++ b "Created: " ++ cr ++ newline ++ b "Trashed: " ++ trash_text i ++ newline) :: after.
Proof.
  intros C U HC HU tz O Y T render dir c v w w' r m items i up cr HO Hq Hu Hin Hc Hup Hcr H.
  assert (Hmk : exists mk, c = CmdOverview v (it_uid i) (it_trashed i) /\ mk = true \/ c = CmdDetails v (it_uid i) (it_trashed i) /\ mk = false)
    by (destruct Hc; eauto).
  destruct Hmk as (mk & Hmk).
  destruct (shown_stored C U HC HU tz O Y T render dir c v mk _ _ w w' r m items HO Hmk Hq Hu H) as (_ & _ & s & Hh & ->).
  apply Hh in Hin. unfold held in Hin. rewrite Hin.
  destruct (lines_times tz i mk up cr Hup Hcr) as (x & y & ->). eauto.
Qed.
Print Assumptions C90_times_of_stored_item.

(** ** C93 *)

(** If no item of the vault has the uid and the trash mark asked for, overview and details say so, succeed and show nothing else. *)
Theorem C93_unknown_item : forall C U, crypto_ok C -> unicode_ok U ->
  forall tz O Y T render dir c v uid trashed w w' r m items,
  oracles_ok O -> quiet_process Y dir w m -> user_opens C U tz w (vault_in_use v m) items ->
  c = CmdOverview v uid trashed \/ c = CmdDetails v uid trashed ->
  (forall i, In i items -> it_uid i = uid -> it_trashed i <> trashed) ->
  process C U tz O Y T render dir c w = (w', r) ->
  r = Ok tt /\ w_disk w' = w_disk w /\
  screen w' = screen w ++ [b "Password:" ++ newline; b "Item with UID " ++ uid ++ b " do not exist" ++ newline].
Proof.
  intros C U HC HU tz O Y T render dir c v uid trashed w w' r m items HO Hq Hu Hc Hno H.
  assert (Hmk : exists mk, c = CmdOverview v uid trashed /\ mk = true \/ c = CmdDetails v uid trashed /\ mk = false)
    by (destruct Hc; eauto).
  destruct Hmk as (mk & Hmk).
  destruct (shown_stored C U HC HU tz O Y T render dir c v mk uid trashed w w' r m items HO Hmk Hq Hu H) as (E1 & E2 & s & Hh & E3).
  split; [exact E1|]. split; [exact E2|]. rewrite E3. destruct (get_item uid trashed s) as [i|] eqn:Ei.
  - exfalso. assert (G : it_uid i = uid /\ it_trashed i = trashed) by (apply find_first_fields in Ei; exact Ei). destruct G as [G1 G2]. apply (Hno i); [|exact G1|exact G2].
    apply Hh. unfold held. now rewrite G1, G2.
  - cbn [map]. rewrite <- !app_assoc. reflexivity.
Qed.
Print Assumptions C93_unknown_item.

(** The note is in the trash: without --trashed it is not found. *)
Example C93_example :
  quiet_process toy_yaml (b "/c") (vault_world (b "/v") [b "freddy"]) (Some (off_settings (b "/v"))) /\
  user_opens toy_crypto latin1 utc (vault_world (b "/v") [b "freddy"]) (vault_in_use [] (Some (off_settings (b "/v")))) demo_items /\
  (forall i, In i demo_items -> it_uid i = b "CC" -> it_trashed i <> false) /\ In (b "CC") (map it_uid demo_items).
Proof.
  split; [apply C81_example|]. split; [apply demo_opens|]. split.
  - intros i [<-|[<-|[<-|[]]]]; discriminate.
  - right. left. reflexivity.
Qed.
