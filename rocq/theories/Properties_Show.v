(** Properties of the commands that open a vault (C63-C67). *)
From Verif Require Import Base Utf8 GoStrings GoStringsProof Json Civil Crypto Path Fs FsProof Domain DomainProof Repos
  Session World WorldProof Config Updater UpdateProof Cli CliProof CliEvents
  Spec_Vault Spec_Domain Toy ToyYaml Properties_Layout Properties_Config Properties_Update Properties_Check Properties_Cli.

Local Notation newline := World.newline.

(** ** Specification *)

(** Two items that differ at most in their secrets: the values of the fields and the notes.  That there are
    notes is no secret. *)
Definition alike_field (f g : item_field) : Prop := fld_name f = fld_name g.
Definition alike_section (s t : item_section) : Prop :=
  sec_title s = sec_title t /\ Forall2 alike_field (sec_fields s) (sec_fields t).
Definition alike (i j : item) : Prop :=
  it_cat i = it_cat j /\ it_created i = it_created j /\ it_title i = it_title j /\ it_trashed i = it_trashed j /\
  it_uid i = it_uid j /\ it_url i = it_url j /\ it_updated i = it_updated j /\
  Forall2 alike_section (it_sections i) (it_sections j) /\ (it_notes i = [] <-> it_notes j = []).

Definition alike_result (x y : option item) : Prop :=
  match x, y with None, None => True | Some i, Some j => alike i j | _, _ => False end.

(** An item with its secrets replaced by stars. *)
Definition mask : bytes := b "**********".
Definition masked (i : item) : item :=
  MkItem (it_cat i) (it_created i) (match it_notes i with [] => [] | _ => mask end) (it_title i) (it_trashed i)
    (map (fun s => MkSection (sec_title s) (map (fun f => MkField (fld_name f) mask) (sec_fields s))) (it_sections i))
    (it_uid i) (it_url i) (it_updated i).

(** ** Lemmas *)

Lemma screen_event w t : screen (add_event (EOut t) w) = screen w ++ [t].
Proof. unfold screen. cbn [add_event w_trace flat_map Datatypes.app rev]. reflexivity. Qed.

Lemma screen_lines ls : forall w,
  screen (fold_left (fun w l => add_event (EOut (l ++ newline)) w) ls w) = screen w ++ map (fun l => l ++ newline) ls.
Proof.
  induction ls as [|l ls IH]; intros w; cbn [fold_left map]; [now rewrite app_nil_r|].
  rewrite IH, screen_event, <- app_assoc. reflexivity.
Qed.

Lemma alike_lines tz i j : alike i j -> item_lines tz true i = item_lines tz true j.
Proof.
  intros (H1 & H2 & H3 & H4 & H5 & H6 & H7 & H8 & H9). unfold item_lines.
  rewrite H1, H2, H3, H4, H6, H7. f_equal. f_equal.
  assert (Hs : forall ss ts, Forall2 alike_section ss ts ->
    flat_map (fun s => [ [] ] ++ (match sec_title s with [] => [] | _ => [sec_title s] end) ++ [dashes]
       ++ map (fun f => fld_name f ++ b ": " ++ stars) (sec_fields s)) ss =
    flat_map (fun s => [ [] ] ++ (match sec_title s with [] => [] | _ => [sec_title s] end) ++ [dashes]
       ++ map (fun f => fld_name f ++ b ": " ++ stars) (sec_fields s)) ts).
  { induction 1 as [|s t ss ts [Ht Hf] _ IH]; [reflexivity|]. cbn [flat_map]. rewrite IH, Ht. f_equal. f_equal. f_equal. f_equal.
    induction Hf as [|f g fs gs Hfg _ IHf]; [reflexivity|]. cbn [map]. rewrite IHf. f_equal. f_equal. exact Hfg. }
  assert (Hn : forall x y : list bytes, match it_notes i with [] => x | _ => y end = match it_notes j with [] => x | _ => y end).
  { intros x y. destruct (it_notes i), (it_notes j); try reflexivity; destruct H9 as [H9 H9']; [discriminate (H9 eq_refl)|discriminate (H9' eq_refl)]. }
  rewrite Hn. f_equal; [|destruct H8; reflexivity].
  specialize (Hs _ _ H8). destruct H8 as [|s t ss ts]; [reflexivity|]. f_equal. exact Hs.
Qed.

Lemma masked_lines tz i : item_lines tz true i = item_lines tz false (masked i).
Proof.
  unfold item_lines, masked. cbn [it_cat it_title it_updated it_created it_trashed it_url it_sections it_notes].
  f_equal. f_equal. f_equal.
  - destruct (it_sections i) as [|s ss]; [reflexivity|]. cbn [map]. f_equal.
    rewrite <- (map_cons (fun s => MkSection (sec_title s) (map (fun f => MkField (fld_name f) mask) (sec_fields s)))).
    induction (s :: ss) as [|x l IH]; [reflexivity|]. cbn [map flat_map sec_title sec_fields]. rewrite IH. f_equal. f_equal. f_equal. f_equal.
    rewrite map_map. reflexivity.
  - destruct (it_notes i); [reflexivity|]. destruct (it_sections i); reflexivity.
Qed.

Section Show.
Variable C : crypto.
Variable U : unicode.
Variable tz : Z -> Z.
Variable O : oracles.
Variable Y : yaml.
Variable T : unpacker.
Variable render : list (list bytes) -> bytes.
Variable dir : bytes.
Notation run := (run_command C U tz O Y T render dir).
Notation open := (open_vault C U tz O Y dir).

Lemma run_opened c v a a1 : flag_of c = Some v -> open v a = (a1, Ok tt) -> run c a = finish U tz O render c a1.
Proof. intros Hf Ho. rewrite (run_vault_command _ _ _ _ _ _ _ _ _ v _ Hf). unfold bind. now rewrite Ho. Qed.

Lemma finish_item mk uid trashed a :
  (i <- on_vault (fun _ s => Ok (s, get_item uid trashed s)) ;;
   match i with
   | Some i => say_all (item_lines tz mk i)
   | None => say (b "Item with UID " ++ uid ++ b " do not exist")
   end)%st a =
  match get_item uid trashed (a_vault a) with
  | Some i => (MkApp (fold_left (fun w l => add_event (EOut (l ++ newline)) w) (item_lines tz mk i) (a_world a)) (a_conf a) (a_vault a), Ok tt)
  | None => (MkApp (add_event (EOut ((b "Item with UID " ++ uid ++ b " do not exist") ++ newline)) (a_world a)) (a_conf a) (a_vault a), Ok tt)
  end.
Proof.
  unfold bind, on_vault. destruct a as [w m s]. cbn [a_world a_conf a_vault].
  destruct (get_item uid trashed s) as [i|]; [|reflexivity]. now rewrite say_all_eq.
Qed.

Lemma shown_overview v uid trashed a a1 : open v a = (a1, Ok tt) ->
  screen (a_world (fst (run (CmdOverview v uid trashed) a))) = screen (a_world a1) ++
    map (fun l => l ++ newline) (match get_item uid trashed (a_vault a1) with Some i => item_lines tz true i
      | None => [b "Item with UID " ++ uid ++ b " do not exist"] end) /\
  snd (run (CmdOverview v uid trashed) a) = Ok tt.
Proof.
  intros H. rewrite (run_opened (CmdOverview v uid trashed) v a a1 eq_refl H). cbn [finish]. rewrite finish_item.
  destruct (get_item uid trashed (a_vault a1)); cbn [fst snd a_world]; split; first [reflexivity|apply screen_lines|apply screen_event].
Qed.

Lemma shown_details v uid trashed a a1 : open v a = (a1, Ok tt) ->
  screen (a_world (fst (run (CmdDetails v uid trashed) a))) = screen (a_world a1) ++
    map (fun l => l ++ newline) (match get_item uid trashed (a_vault a1) with Some i => item_lines tz false i
      | None => [b "Item with UID " ++ uid ++ b " do not exist"] end) /\
  snd (run (CmdDetails v uid trashed) a) = Ok tt.
Proof.
  intros H. rewrite (run_opened (CmdDetails v uid trashed) v a a1 eq_refl H). cbn [finish]. rewrite finish_item.
  destruct (get_item uid trashed (a_vault a1)); cbn [fst snd a_world]; split; first [reflexivity|apply screen_lines|apply screen_event].
Qed.
End Show.

(** ** C63 *)

(** Two processes open vaults (not necessarily the same one).  If so far their screens show the same
    and the items with the given uid differ at most in their secrets, overview shows the same. *)
Theorem C63_overview_reveals_no_secret : forall C U tz O Y T render dir v uid trashed a1 a2 b1 b2,
  open_vault C U tz O Y dir v a1 = (b1, Ok tt) -> open_vault C U tz O Y dir v a2 = (b2, Ok tt) ->
  screen (a_world b1) = screen (a_world b2) ->
  alike_result (get_item uid trashed (a_vault b1)) (get_item uid trashed (a_vault b2)) ->
  screen (a_world (fst (run_command C U tz O Y T render dir (CmdOverview v uid trashed) a1))) =
  screen (a_world (fst (run_command C U tz O Y T render dir (CmdOverview v uid trashed) a2))) /\
  snd (run_command C U tz O Y T render dir (CmdOverview v uid trashed) a1) =
  snd (run_command C U tz O Y T render dir (CmdOverview v uid trashed) a2).
Proof.
  intros C U tz O Y T render dir v uid trashed a1 a2 b1 b2 H1 H2 Hs Ha.
  destruct (shown_overview C U tz O Y T render dir v uid trashed _ _ H1) as [S1 R1].
  destruct (shown_overview C U tz O Y T render dir v uid trashed _ _ H2) as [S2 R2].
  rewrite S1, S2, R1, R2. split; [|reflexivity]. rewrite Hs. f_equal. f_equal. unfold alike_result in Ha.
  destruct (get_item uid trashed (a_vault b1)) as [i|], (get_item uid trashed (a_vault b2)) as [j|]; try contradiction; [|reflexivity].
  now apply alike_lines.
Qed.
Print Assumptions C63_overview_reveals_no_secret.

(** The card of the demo vault, and one with another pin. *)
Definition other_card : item :=
  MkItem (Cat (b "002") (b "Credit Card")) 1300000001 [] (b "Visa") false
      [MkSection (b "Main") [MkField (b "Pin") (b "9999")]] (b "BB") [] 1400000001.

Definition demo_app (vault : bytes) (pass : list bytes) : app := MkApp (vault_world vault pass) (Some (off_settings vault)) init.
Definition demo_open (v : bytes) (a : app) := open_vault toy_crypto latin1 utc forwards toy_yaml (b "/c") v a.

Example C63_example :
  snd (demo_open [] (demo_app (b "/v") [b "freddy"])) = Ok tt /\
  (exists i, get_item (b "BB") false (a_vault (fst (demo_open [] (demo_app (b "/v") [b "freddy"])))) = Some i /\
     alike i other_card /\ i <> other_card).
Proof.
  split; [vm_compute; reflexivity|]. eexists. split; [vm_compute; reflexivity|]. split; [|discriminate].
  unfold alike, other_card. cbn [it_cat it_created it_notes it_title it_trashed it_sections it_uid it_url it_updated].
  repeat split; auto. repeat constructor.
Qed.

(** ** C64 *)

(** A section as it is shown: an empty line, its title if it has one, a ruler and a line for each field. *)
Definition section_lines (s : item_section) : list bytes :=
  [] :: (match sec_title s with [] => [] | _ => [sec_title s] end) ++
  b "------------------------------" :: map (fun f => fld_name f ++ b ": " ++ fld_value f) (sec_fields s).

Lemma details_lines tz i : exists head tail, item_lines tz false i = head ++ flat_map section_lines (it_sections i) ++ tail /\
      In (it_title i) head /\ In (cat_name (it_cat i)) head /\
      (it_url i <> [] -> In (b "URL: " ++ it_url i) head) /\
      (it_notes i <> [] -> exists x y, tail = x ++ b "Notes" :: b "------------------------------" :: it_notes i :: y).
Proof.
  unfold item_lines.
  set (top := [ []; cat_name (it_cat i); dashes; it_title i; []; _ ]).
  set (url := match it_url i with [] => _ | _ => _ end).
  set (notes := match it_notes i with [] => _ | _ => _ end).
  exists (top ++ url), ((match it_sections i with [] => [] | _ => [[]] end) ++ notes). split; [|split; [|split; [|split]]].
  - rewrite <- (app_assoc top url). f_equal. f_equal. clearbody notes. destruct (it_sections i) as [|s ss]; [reflexivity|].
    rewrite <- app_assoc. reflexivity.
  - apply in_or_app. left. unfold top. cbn. auto.
  - apply in_or_app. left. unfold top. cbn. auto.
  - intros Hu. apply in_or_app. right. unfold url. destruct (it_url i); [congruence|now left].
  - intros Hn. unfold notes. destruct (it_notes i) as [|n ns] eqn:En; [congruence|].
    destruct (it_sections i); [exists [[]], [[]]|exists [[]], [[]]]; reflexivity.
Qed.

(** details shows all sections with their fields and values in order, and then the notes. *)
Theorem C64_details_shows_everything : forall C U tz O Y T render dir v uid trashed a a1 i,
  open_vault C U tz O Y dir v a = (a1, Ok tt) -> get_item uid trashed (a_vault a1) = Some i ->
  exists lines, screen (a_world (fst (run_command C U tz O Y T render dir (CmdDetails v uid trashed) a))) =
      screen (a_world a1) ++ map (fun l => l ++ newline) lines /\
    exists head tail, lines = head ++ flat_map section_lines (it_sections i) ++ tail /\
      In (it_title i) head /\ In (cat_name (it_cat i)) head /\
      (it_url i <> [] -> In (b "URL: " ++ it_url i) head) /\
      (it_notes i <> [] -> exists x y, tail = x ++ b "Notes" :: b "------------------------------" :: it_notes i :: y).
Proof.
  intros C U tz O Y T render dir v uid trashed a a1 i Ho Hi.
  destruct (shown_details C U tz O Y T render dir v uid trashed _ _ Ho) as [S _]. rewrite Hi in S.
  exists (item_lines tz false i). split; [exact S|]. apply details_lines.
Qed.
Print Assumptions C64_details_shows_everything.

Example C64_example :
  screen (fst (demo_process (b "/c") (CmdDetails [] (b "AA") false) (vault_world (b "/v") [b "freddy"]))) =
   map (fun l => l ++ newline)
   [ b "Password:"; []; b "Login"; dashes; b "Mail"; [];
     b "Updated: 2014-05-13 16:53:20" ++ newline ++ b "Created: 2011-03-13 07:06:40" ++ newline ++ b "Trashed: false";
     b "URL: mail.org"; []; dashes; b "User: bob"; []; b "Notes"; dashes; b "hi"; [] ].
Proof. vm_compute. reflexivity. Qed.

(** ** C65 *)

(** overview of an item is details of the masked item. *)
Theorem C65_overview_is_masked_details : forall C U tz O Y T render dir v uid trashed a1 a2 b1 b2 i,
  open_vault C U tz O Y dir v a1 = (b1, Ok tt) -> open_vault C U tz O Y dir v a2 = (b2, Ok tt) ->
  screen (a_world b1) = screen (a_world b2) ->
  get_item uid trashed (a_vault b1) = Some i -> get_item uid trashed (a_vault b2) = Some (masked i) ->
  screen (a_world (fst (run_command C U tz O Y T render dir (CmdOverview v uid trashed) a1))) =
  screen (a_world (fst (run_command C U tz O Y T render dir (CmdDetails v uid trashed) a2))).
Proof.
  intros C U tz O Y T render dir v uid trashed a1 a2 b1 b2 i H1 H2 Hs I1 I2.
  destruct (shown_overview C U tz O Y T render dir v uid trashed _ _ H1) as [S1 _].
  destruct (shown_details C U tz O Y T render dir v uid trashed _ _ H2) as [S2 _].
  rewrite S1, S2, I1, I2, Hs. f_equal. f_equal. apply masked_lines.
Qed.
Print Assumptions C65_overview_is_masked_details.

(** A vault whose items are masked already. *)
Example C65_example :
  (exists i, get_item (b "BB") false (a_vault (fst (demo_open [] (demo_app (b "/v") [b "freddy"])))) = Some i /\
   masked i <> i) /\ item_lines utc true other_card = item_lines utc false (masked other_card).
Proof. split; [eexists; split; [vm_compute; reflexivity|discriminate]|reflexivity]. Qed.

(** The category asked for. *)
Definition wanted (U : unicode) (s : state) (category : bytes) : eres (option Domain.category) :=
  match category with
  | [] => Val None
  | _ => match cat_from_name U (st_reg s) (trim_space category) with Val c => Val (Some c) | Err e => Err e end
  end.

Lemma finish_list U tz O render v category title trashed a :
  finish U tz O render (CmdList v category title trashed) a =
  match wanted U (a_vault a) category with
  | Err e => (MkApp (add_event (EOut (err_text e ++ newline)) (a_world a)) (a_conf a) (a_vault a), Exit 1)
  | Val cat =>
      (MkApp (add_event (EOut (match get_items U O cat (trim_space title) trashed (a_vault a) with
         | [] => b "No results for search (category: " ++ (match category with [] => [] | _ => trim_space category end)
                   ++ b ", name: " ++ trim_space title ++ b ", trashed: " ++ bool_text trashed ++ b ")"
         | items => render ([b "lp."; b "uid"; b "category"; b "title"]
                 :: number_rows 1 (map (fun i => [s_uid i; cat_name (s_cat i); s_title i]) items))
         end ++ newline)) (a_world a)) (a_conf a) (a_vault a), Ok tt)
  end.
Proof.
  destruct a as [w m s]. cbn [finish a_world a_conf a_vault]. cbv zeta. unfold bind at 1, on_vault at 1. cbn [a_world a_conf a_vault].
  unfold wanted. destruct category as [|x y].
  - unfold bind, on_vault. cbn [a_world a_conf a_vault]. destruct (get_items U O None (trim_space title) trashed s) as [|i items]; reflexivity.
  - destruct (cat_from_name U (st_reg s) (trim_space (x :: y))) as [cat|e]; [|reflexivity].
    unfold bind, on_vault. cbn [a_world a_conf a_vault].
    destruct (get_items U O (Some cat) (trim_space title) trashed s) as [|i items]; reflexivity.
Qed.

(** ** C66 *)

Lemma layout_dec D p : vault_layout D p \/ ~ vault_layout D p.
Proof.
  destruct (resolve D p) as [L|] eqn:Hr; [|right; intros (L & H & _); congruence].
  destruct (fs_get (d_fs D) L) as [[c m|]|] eqn:Hd; try (right; intros (L' & H & H' & _); congruence).
  destruct (fs_get (d_fs D) (b "default" :: L)) as [[c m|]|] eqn:Hf; try (right; intros (L' & H & _ & H' & _); congruence).
  destruct (fs_get (d_fs D) (in_default (b "profile.js") L)) as [[c m|]|] eqn:Hp;
    try (right; intros (L' & H & _ & _ & c' & m' & H'); congruence).
  left. exists L. eauto 6.
Qed.

Lemma validate_none D p s s1 : validate D p s = Ok (s1, None) -> vault_layout D p.
Proof.
  intros H. destruct (layout_dec D p) as [Hl|Hl]; [exact Hl|].
  destruct (proj2 (C36_validate_exact D p s) Hl) as (msg & E & _). congruence.
Qed.

(** Reading the open vault changes neither the settings nor the disk. *)
Definition calm {A} (m : act A) : Prop := forall a,
  a_conf (fst (m a)) = a_conf a /\ w_disk (a_world (fst (m a))) = w_disk (a_world a).
Lemma calm_ret {A} (x : A) : calm (ret x).
Proof. split; reflexivity. Qed.
Lemma calm_lift {A} (x : res A) : calm (lift x).
Proof. split; reflexivity. Qed.
Lemma calm_say t : calm (say t).
Proof. split; reflexivity. Qed.
Lemma calm_vault {A} (f : disk -> state -> res (state * A)) : calm (on_vault f).
Proof. intros a. unfold on_vault. destruct (f _ _) as [[s x]| |n]; split; reflexivity. Qed.
Lemma calm_bind {A B} (m : act A) (k : A -> act B) : calm m -> (forall x, calm (k x)) -> calm (bind m k).
Proof.
  intros Hm Hk a. unfold bind. specialize (Hm a). destruct (m a) as [a1 [x| |n]]; auto.
  destruct (Hk x a1) as [H1 H2]. cbn [fst] in Hm. destruct Hm as [H3 H4]. split; congruence.
Qed.
Lemma calm_say_all ls : calm (say_all ls).
Proof. induction ls as [|l ls IH]; [apply calm_ret|]. apply calm_bind; [apply calm_say|intros _; exact IH]. Qed.
Lemma calm_finish U tz O render c : calm (finish U tz O render c).
Proof.
  destruct c; cbn [finish]; try apply calm_ret.
  - cbv zeta. apply calm_bind; [apply calm_vault|]. intros [x|e]; [|apply calm_bind; [apply calm_say|intros _; apply calm_lift]].
    apply calm_bind; [apply calm_vault|]. intros [|i l]; apply calm_say.
  - apply calm_bind; [apply calm_vault|]. intros [i|]; [apply calm_say_all|apply calm_say].
  - apply calm_bind; [apply calm_vault|]. intros [i|]; [apply calm_say_all|apply calm_say].
Qed.
Lemma calm_ask : calm (on_world ask_password).
Proof. intros a. unfold on_world, ask_password. destruct (w_pass (a_world a)); split; reflexivity. Qed.
Lemma calm_enter C U tz O v : calm (enter C U tz O v).
Proof.
  apply calm_bind; [apply calm_vault|]. intros [e|]; [apply calm_bind; [apply calm_say|intros _; apply calm_lift]|].
  apply calm_bind; [apply calm_say|]. intros _. apply calm_bind; [apply calm_ask|]. intros p.
  apply calm_bind; [apply calm_vault|]. intros [e|]; [apply calm_bind; [apply calm_say|intros _; apply calm_lift]|apply calm_ret].
Qed.

(** A command that opens a vault, step by step. *)
Lemma run_prepared C U tz O Y T render dir c v a : flag_of c = Some v ->
  run_command C U tz O Y T render dir c a =
  match prepare U Y dir a with
  | (a1, Ok _) =>
      match snd (choose v a1) with
      | Ok vault => (enter C U tz O vault ;;; finish U tz O render c)%st a1
      | Panic => (a1, Panic)
      | Exit n => (a1, Exit n)
      end
  | (a1, Panic) => (a1, Panic)
  | (a1, Exit n) => (a1, Exit n)
  end.
Proof.
  intros Hf. rewrite (run_vault_command _ _ _ _ _ _ _ _ _ v _ Hf). unfold bind at 1. rewrite open_vault_eq. unfold bind at 1.
  destruct (prepare U Y dir a) as [a1 [u| |n]]; [|reflexivity|reflexivity]. unfold bind at 1. rewrite choose_eq. cbn [snd].
  destruct v as [|x v]; [destruct (get_config (a_conf a1)) as [cfg| |n]; [|reflexivity|reflexivity]|]; unfold bind; reflexivity.
Qed.

(** The vault a command opens: the one of its flag, without it the one of the settings. *)
Definition vault_in_use (flag : bytes) (m : cmap) : bytes :=
  match flag with [] => match m with Some l => get_vault (Some l) | None => [] end | _ => flag end.

Lemma vault_in_use_path flag m : vault_in_use flag m = vault_path flag m.
Proof. destruct flag, m; reflexivity. Qed.

Definition not_ask (e : ev) : Prop := e <> EAsk.

(** The password is asked for only when the vault to be opened has the layout of a vault. *)
Theorem C66_password_needs_vault : forall C U tz O Y T render dir c v a a' r,
  flag_of c = Some v -> run_command C U tz O Y T render dir c a = (a', r) ->
  happened (a_world a) (a_world a') EAsk ->
  vault_layout (w_disk (a_world a')) (vault_in_use v (a_conf a')).
Proof.
  intros C U tz O Y T render dir c v a a' r Hf H Hh. rewrite vault_in_use_path.
  assert (D : does not_ask (prepare U Y dir)) by (apply does_prepare; intros; discriminate).
  assert (DF : does not_ask (finish U tz O render c)).
  { intros a2. destruct (does_finish U tz O render c a2) as (t & E & Ht). exists t. split; [exact E|].
    eapply Forall_impl; [|exact Ht]. intros e He ->. exact He. }
  rewrite (run_prepared _ _ _ _ _ _ _ _ _ v _ Hf) in H. specialize (D a).
  destruct (prepare U Y dir a) as [a1 rp]. cbn [fst] in D.
  assert (No : a' = a1 -> False).
  { intros ->. destruct D as (t & E & Ht). apply (happened_in _ _ _ _ E) in Hh. rewrite Forall_forall in Ht. now apply (Ht _ Hh). }
  destruct rp as [u| |n]; [|elim No; congruence|elim No; congruence].
  rewrite choose_eq in H. cbn [snd] in H. set (vp := vault_path v (a_conf a1)) in *.
  assert (H' : (enter C U tz O vp ;;; finish U tz O render c)%st a1 = (a', r)).
  { destruct v; [|exact H]. destruct (get_config (a_conf a1)); [exact H|elim No; congruence|elim No; congruence]. }
  clear H. assert (Hcalm : calm (enter C U tz O vp ;;; finish U tz O render c)%st) by (apply calm_bind; [apply calm_enter|intros; apply calm_finish]).
  specialize (Hcalm a1). rewrite H' in Hcalm. cbn [fst] in Hcalm. destruct Hcalm as [Hc Hd]. rewrite Hc, Hd. fold vp.
  unfold bind in H'. rewrite enter_eq in H'.
  destruct (validate (w_disk (a_world a1)) vp (a_vault a1)) as [[s1 [e|]]| |n] eqn:Ev; cbv beta iota zeta in H'.
  - exfalso. assert (Ha : a' = MkApp (add_event (EOut (err_text e ++ newline)) (a_world a1)) (a_conf a1) s1) by congruence.
    destruct D as (t & E & Ht). subst a'. cbn [a_world] in Hh.
    apply (happened_in _ _ (EOut (err_text e ++ newline) :: t)) in Hh; [|cbn; now rewrite E].
    destruct Hh as [Hh|Hh]; [discriminate|]. rewrite Forall_forall in Ht. now apply (Ht _ Hh).
  - exact (validate_none _ _ _ _ Ev).
  - elim No. congruence.
  - elim No. congruence.
Qed.
Print Assumptions C66_password_needs_vault.

(** Otherwise the command says why and exits with 1. *)
Theorem C66_no_vault_exits : forall C U tz O Y T render dir c v a m cfg,
  flag_of c = Some v -> a_conf a = m -> is_available m = true -> get_config m = Ok cfg -> cfg_notify cfg = false ->
  ~ vault_layout (w_disk (a_world a)) (vault_in_use v m) ->
  exists reason, run_command C U tz O Y T render dir c a =
    (MkApp (add_event (EOut (reason ++ newline)) (a_world a)) m (a_vault a), Exit 1).
Proof.
  intros C U tz O Y T render dir c v a m cfg Hf Hm Hav Hcfg Hn Hl. rewrite vault_in_use_path in Hl.
  rewrite (run_prepared _ _ _ _ _ _ _ _ _ v _ Hf).
  assert (Hp : prepare U Y dir a = (a, Ok tt)).
  { unfold prepare, bind at 1, first_run, bind at 1, the_conf. rewrite Hm, Hav. unfold ret. apply (silent_check dir a cfg); congruence. }
  rewrite Hp, choose_eq. cbn [snd]. set (vp := vault_path v m) in *.
  destruct (proj2 (C36_validate_exact (w_disk (a_world a)) vp (a_vault a)) Hl) as (msg & E & _).
  exists (err_text (ErrInvalidVault msg)). rewrite Hm. fold vp.
  assert (G : (enter C U tz O vp ;;; finish U tz O render c)%st a =
    (MkApp (add_event (EOut (err_text (ErrInvalidVault msg) ++ newline)) (a_world a)) m (a_vault a), Exit 1)).
  { unfold bind. rewrite enter_eq, E, Hm. reflexivity. }
  destruct v; [rewrite Hcfg|]; exact G.
Qed.
Print Assumptions C66_no_vault_exits.

(** When the vault does not open with the password (see C01-C05), the command says so and exits with 1;
    nothing of the vault is shown. *)
Theorem C66_refused_password_shows_nothing : forall C U tz O Y T render dir c v a m cfg s1 s2 e,
  flag_of c = Some v -> a_conf a = m -> is_available m = true -> get_config m = Ok cfg -> cfg_notify cfg = false ->
  validate (w_disk (a_world a)) (vault_in_use v m) (a_vault a) = Ok (s1, None) ->
  unlock C U tz O (w_disk (a_world a)) (vault_in_use v m) (typed_pass (a_world a)) s1 = Ok (s2, Some e) ->
  let (a', r) := run_command C U tz O Y T render dir c a in
  r = Exit 1 /\ screen (a_world a') = screen (a_world a) ++ [b "Password:" ++ newline; err_text e ++ newline] /\
  w_disk (a_world a') = w_disk (a_world a).
Proof.
  intros C U tz O Y T render dir c v a m cfg s1 s2 e Hf Hm Hav Hcfg Hn. rewrite vault_in_use_path. intros Hv Hu.
  assert (Hp : prepare U Y dir a = (a, Ok tt)).
  { unfold prepare, bind at 1, first_run, bind at 1, the_conf. rewrite Hm, Hav. unfold ret. apply (silent_check dir a cfg); congruence. }
  set (vp := vault_path v m) in *.
  assert (G : (enter C U tz O vp ;;; finish U tz O render c)%st a =
    (MkApp (add_event (EOut (err_text e ++ newline)) (after_ask (add_event (EOut (b "Password:" ++ newline)) (a_world a)))) m s2, Exit 1)).
  { unfold bind. rewrite enter_eq, Hv, Hu, Hm. reflexivity. }
  assert (R : run_command C U tz O Y T render dir c a =
    (MkApp (add_event (EOut (err_text e ++ newline)) (after_ask (add_event (EOut (b "Password:" ++ newline)) (a_world a)))) m s2, Exit 1)).
  { rewrite (run_prepared _ _ _ _ _ _ _ _ _ v _ Hf), Hp, choose_eq. cbn [snd]. rewrite Hm. fold vp. destruct v; [rewrite Hcfg|]; exact G. }
  rewrite R. split; [reflexivity|]. split.
  - cbn [a_world]. rewrite screen_event.
    assert (Hs : screen (after_ask (add_event (EOut (b "Password:" ++ newline)) (a_world a))) = screen (a_world a) ++ [b "Password:" ++ newline]).
    { rewrite <- screen_event. unfold after_ask, ask_password. cbn [w_pass add_event]. destruct (w_pass (a_world a)); reflexivity. }
    rewrite Hs, <- app_assoc. reflexivity.
  - cbn [a_world]. unfold after_ask, ask_password. cbn [w_pass add_event]. destruct (w_pass (a_world a)); reflexivity.
Qed.
Print Assumptions C66_refused_password_shows_nothing.

Example C66_example :
  let nowhere := demo_process (b "/c") (CmdList (b "/w") [] [] false) (vault_world (b "/v") [b "freddy"]) in
  let wrong := demo_process (b "/c") (CmdList [] [] [] false) (vault_world (b "/v") [b "Freddy"]) in
  let right := demo_process (b "/c") (CmdList [] [] [] false) (vault_world (b "/v") [b "freddy"]) in
  (snd nowhere = Exit 1 /\ screen (fst nowhere) = [b "invalid vault (/w is not a valid path)" ++ newline]) /\
  (snd wrong = Exit 1 /\ screen (fst wrong) = [b "Password:" ++ newline; b "invalid password" ++ newline]) /\
  (snd right = Ok tt /\ length (screen (fst right)) = 2).
Proof. vm_compute. auto 10. Qed.

(** ** C67 *)

(** The same command with another flag. *)
Definition with_vault (v : bytes) (c : command) : command :=
  match c with
  | CmdList _ x y z => CmdList v x y z
  | CmdOverview _ x y => CmdOverview v x y
  | CmdDetails _ x y => CmdDetails v x y
  | c => c
  end.

(** The flag wins: with it, what the command shows, writes, requests and returns does not
    depend on the vault of the settings. *)
Theorem C67_flag_wins : forall C U tz O Y T render dir c v w s m1 m2 cfg1 cfg2,
  flag_of c = Some v -> v <> [] ->
  is_available m1 = true -> is_available m2 = true -> get_config m1 = Ok cfg1 -> get_config m2 = Ok cfg2 ->
  cfg2 = MkConfig (cfg_timeout cfg1) (cfg_notify cfg1) (cfg_period cfg1) (cfg_vault cfg2) ->
  let (a1, r1) := run_command C U tz O Y T render dir c (MkApp w m1 s) in
  let (a2, r2) := run_command C U tz O Y T render dir c (MkApp w m2 s) in
  a_world a1 = a_world a2 /\ a_vault a1 = a_vault a2 /\ r1 = r2.
Proof.
  intros C U tz O Y T render dir c v w s m1 m2 cfg1 cfg2 Hf Hv A1 A2 G1 G2 Hc.
  set (swap := fun (p : app * res unit) => (a_world (fst p), a_vault (fst p), snd p)).
  assert (E : swap (run_command C U tz O Y T render dir c (MkApp w m1 s)) = swap (run_command C U tz O Y T render dir c (MkApp w m2 s))).
  { rewrite !(run_prepared _ _ _ _ _ _ _ _ _ v _ Hf).
    assert (P : forall m cfg, is_available m = true -> get_config m = Ok cfg -> prepare U Y dir (MkApp w m s) =
      if cfg_notify cfg then
        match check_for_update (cfg_period cfg) false dir w with
        | (w2, Ok (Val info)) => (MkApp (add_event (EOut ((b "New version of 1pass is available (current: " ++ app_version ++ b ", available: "
             ++ ui_version info ++ b "). Run 'sudo 1pass update' to upgrade." ++ nl) ++ newline)) w2) m s, Ok tt)
        | (w2, Ok (Err _)) => (MkApp w2 m s, Ok tt)
        | (w2, Panic) => (MkApp w2 m s, Panic)
        | (w2, Exit n) => (MkApp w2 m s, Exit n)
        end
      else (MkApp w m s, Ok tt)).
    { intros m cfg Ha Hg. unfold prepare, bind at 1, first_run, bind at 1, the_conf. cbn [a_conf]. rewrite Ha. unfold ret at 1.
      unfold cli_check, bind at 1, config_now, bind at 1, the_conf, lift. cbn [a_conf]. rewrite Hg.
      destruct (cfg_notify cfg); [|reflexivity]. unfold bind at 1, bind at 1, on_world at 1, facade_check, bind at 1, lift. cbn [a_world a_conf a_vault]. rewrite Hg.
      destruct (check_for_update (cfg_period cfg) false dir w) as [w2 [[info|e]| |n]]; reflexivity. }
    rewrite (P m1 cfg1 A1 G1), (P m2 cfg2 A2 G2). rewrite Hc. cbn [cfg_notify cfg_period].
    assert (Q : forall w2, swap (match snd (choose v (MkApp w2 m1 s)) with
        | Ok vault => (enter C U tz O vault ;;; finish U tz O render c)%st (MkApp w2 m1 s)
        | Panic => (MkApp w2 m1 s, Panic) | Exit n => (MkApp w2 m1 s, Exit n) end) =
      swap (match snd (choose v (MkApp w2 m2 s)) with
        | Ok vault => (enter C U tz O vault ;;; finish U tz O render c)%st (MkApp w2 m2 s)
        | Panic => (MkApp w2 m2 s, Panic) | Exit n => (MkApp w2 m2 s, Exit n) end)).
    { intros w2. destruct v as [|x v']; [congruence|]. set (v := x :: v') in *.
      change (snd (choose v (MkApp w2 m1 s))) with (@Ok bytes v). change (snd (choose v (MkApp w2 m2 s))) with (@Ok bytes v). cbv iota.
      assert (F : forall w3 s3, swap (finish U tz O render c (MkApp w3 m1 s3)) = swap (finish U tz O render c (MkApp w3 m2 s3))).
      { intros w3 s3. destruct c; try discriminate.
        - rewrite !finish_list. cbn [a_world a_conf a_vault]. destruct (wanted U s3 category); reflexivity.
        - cbn [finish]. rewrite !finish_item. cbn [a_world a_conf a_vault]. destruct (get_item _ _ s3); reflexivity.
        - cbn [finish]. rewrite !finish_item. cbn [a_world a_conf a_vault]. destruct (get_item _ _ s3); reflexivity. }
      unfold bind. rewrite !enter_eq. cbn [a_world a_conf a_vault].
      destruct (validate (w_disk w2) v s) as [[s1 [e|]]| |n]; try reflexivity. cbv zeta.
      destruct (unlock C U tz O (w_disk w2) v (typed_pass w2) s1) as [[s2 [e|]]| |n]; try reflexivity. apply F. }
    destruct (cfg_notify cfg1); [|apply Q].
    destruct (check_for_update (cfg_period cfg1) false dir w) as [w2 [[info|e]| |n]]; try reflexivity; apply Q. }
  destruct (run_command C U tz O Y T render dir c (MkApp w m1 s)) as [a1 r1].
  destruct (run_command C U tz O Y T render dir c (MkApp w m2 s)) as [a2 r2].
  unfold swap in E. cbn [fst snd] in E. split; [|split]; congruence.
Qed.
Print Assumptions C67_flag_wins.

(** Without the flag the command works as with the vault of the settings (those in force after a first
    configuration) as its flag. *)
Lemma default_prepared : forall C U tz O Y T render dir c a a1 cfg,
  flag_of c = Some [] -> (first_run U Y dir ;;; cli_check dir)%st a = (a1, Ok tt) ->
  get_config (a_conf a1) = Ok cfg -> cfg_vault cfg <> [] ->
  run_command C U tz O Y T render dir c a = run_command C U tz O Y T render dir (with_vault (cfg_vault cfg) c) a.
Proof.
  intros C U tz O Y T render dir c a a1 cfg Hf Hp Hg Hne. fold (prepare U Y dir) in Hp.
  assert (Hf' : flag_of (with_vault (cfg_vault cfg) c) = Some (cfg_vault cfg)) by (destruct c; try discriminate; reflexivity).
  rewrite (run_prepared _ _ _ _ _ _ _ _ c [] _ Hf), (run_prepared _ _ _ _ _ _ _ _ (with_vault (cfg_vault cfg) c) _ _ Hf'), Hp, !choose_eq. cbn [snd].
  rewrite Hg. cbn [vault_path]. rewrite <- (get_config_vault _ _ Hg).
  assert (E : finish U tz O render (with_vault (cfg_vault cfg) c) = finish U tz O render c) by (destruct c; reflexivity).
  rewrite E. unfold vault_path. destruct (cfg_vault cfg) as [|x y]; [congruence|reflexivity].
Qed.

(** Without the flag the command works as with the vault of the settings as its flag. *)
Theorem C67_settings_are_default : forall C U tz O Y T render dir c w m cfg,
  flag_of c = Some [] -> load_config Y (w_disk w) dir = Ok m -> is_available m = true ->
  get_config m = Ok cfg -> cfg_vault cfg <> [] ->
  process C U tz O Y T render dir c w = process C U tz O Y T render dir (with_vault (cfg_vault cfg) c) w.
Proof.
  intros C U tz O Y T render dir c w m cfg Hf Hm Ha Hg Hne. rewrite !process_run, Hm.
  set (a := MkApp w m init).
  assert (Hf' : flag_of (with_vault (cfg_vault cfg) c) = Some (cfg_vault cfg)) by (destruct c; try discriminate; reflexivity).
  assert (Hc : a_conf (fst (prepare U Y dir a)) = m).
  { unfold prepare, bind at 1, first_run, bind at 1, the_conf. change (is_available (a_conf a)) with (is_available m). rewrite Ha.
    unfold ret at 1. unfold cli_check, config_now, bind, the_conf, lift. change (get_config (a_conf a)) with (get_config m). rewrite Hg.
    destruct (cfg_notify cfg); [|reflexivity]. unfold on_world. destruct (facade_check _ _ _ _) as [w1 [[info|e]| |n]]; reflexivity. }
  destruct (prepare U Y dir a) as [a1 [[]| |n]] eqn:Hp.
  - cbn [fst] in Hc. subst m. rewrite (default_prepared C U tz O Y T render dir c a a1 cfg Hf Hp Hg Hne). reflexivity.
  - rewrite (run_prepared _ _ _ _ _ _ _ _ c [] a Hf), (run_prepared _ _ _ _ _ _ _ _ (with_vault (cfg_vault cfg) c) _ a Hf'), Hp. reflexivity.
  - rewrite (run_prepared _ _ _ _ _ _ _ _ c [] a Hf), (run_prepared _ _ _ _ _ _ _ _ (with_vault (cfg_vault cfg) c) _ a Hf'), Hp. reflexivity.
Qed.
Print Assumptions C67_settings_are_default.

Example C67_example :
  let run v := demo_process (b "/c") (CmdOverview v (b "BB") false) in
  fst (run (b "/v") (vault_world (b "/w") [b "freddy"])) <> vault_world (b "/w") [b "freddy"] /\
  screen (fst (run (b "/v") (vault_world (b "/w") [b "freddy"]))) = screen (fst (run [] (vault_world (b "/v") [b "freddy"]))) /\
  snd (run [] (vault_world (b "/w") [b "freddy"])) = Exit 1.
Proof. vm_compute. split; [discriminate|auto]. Qed.
