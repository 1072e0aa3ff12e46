(** The command update from its start to its end (C80, C110).  Releases, disks, settings and answers are arbitrary. *)
From Verif Require Import Base Utf8 Spec_Trim GoStrings GoStringsProof FieldsProof Json Crypto Path Fs FsProof Domain DomainProof Repos Session World WorldProof
  Config Updater UpdateProof Cli CliProof CliEvents Spec_Release Toy ToyYaml RepeatProof.
From Verif Require Import Properties_Update Properties_Config Properties_Cli Properties_Show Properties_Check Properties_Interrupt Properties_Release Properties_Repeat
  Properties_Effects Properties_Dialogue.
Local Notation newline := World.newline.

(** ** Specification *)

(** The directory of the settings is there, at [K], and the time of a check can be stored in it. *)
Definition settings_at (w : world) (dir : bytes) (K : loc) : Prop :=
  resolve (w_disk w) dir = Some K /\ is_dir (w_fs w) K = true /\ is_dir (w_fs w) (b "lastcheck" :: K) = false.

(** The user answers the question with y or Y. *)
Definition agrees (w : world) : Prop := exists q rest,
  w_stdin w = typed [q] ++ rest /\ word q /\ In (utf8_encode q) [b "y"; b "Y"].

(** What the terminal shows from the question to the end when the release [o] is offered and everything works. *)
Definition upgrade_dialogue (o : offer) : list bytes :=
  [ b "Checking for 1pass application updates..." ++ newline;
    b "New version of 1pass is available (" ++ of_version o ++ b ")." ++ newline ++ newline ++ of_notes o ++ newline ++ newline;
    b "Do you want to update now? (n) [y - for yes/n - for no]: ";
    b "Updating 1pass application from version 1.3.1 to " ++ of_version o ++ b "..." ++ newline;
    b "  Creating update cache..." ++ newline;
    b "  Downloading new version..." ++ newline;
    b "  Downloading checksums..." ++ newline;
    b "  Extracting downloaded files..." ++ newline;
    b "  Validating checksums..." ++ newline;
    b "  Replacing binary..." ++ newline;
    b "  Cleaning update cache..." ++ newline;
    b "1pass application updated to version " ++ of_version o ++ newline ].

(** The command succeeded: the program at [L] is [data], the cache is gone, and nothing else has changed but the time of the
    last check, in the settings at [K]. *)
Definition upgraded (w w' : world) (L K : loc) (data : bytes) : Prop :=
  fs_get (w_fs w') L = Some (NFile data (N.ldiff 438 (w_umask w))) /\
  (forall k, in_cache k -> fs_get (w_fs w') k = None) /\
  (forall k, ~ in_cache k -> k <> L -> k <> [b "tmp"] -> k <> b "lastcheck" :: K -> fs_get (w_fs w') k = fs_get (w_fs w) k).

(** ** Lemmas *)

Definition no_out (e : ev) : Prop := match e with EOut _ => False | _ => True end.

Lemma emits_no_out {A} (m : io A) w : emits no_out m -> screen (fst (m w)) = screen w.
Proof.
  intros H. destruct (H w) as (t & E & Ht). unfold screen. rewrite E, flat_map_app.
  assert (X : flat_map (fun e => match e with EOut t => [t] | _ => [] end) t = []).
  { clear E. induction Ht as [|e t He _ IH]; [reflexivity|]. destruct e; cbn in *; try contradiction; exact IH. }
  now rewrite X.
Qed.

Lemma stages_screen stage l : Forall (fun ns => emits no_out (snd ns)) l -> forall w w', run_stages stage l w = (w', Ok None) ->
  screen w' = screen w ++ map (fun ns => stage (fst ns)) l.
Proof.
  induction 1 as [|[n s] l Hs _ IH]; intros w w' H; cbn [run_stages] in H.
  - unfold ret in H. assert (w' = w) by congruence. subst w'. cbn [map]. now rewrite app_nil_r.
  - unfold bind, announce in H. cbn [snd] in Hs. set (w1 := add_event _ (add_event _ w)) in H.
    assert (E1 : screen w1 = screen w ++ [stage n]) by (unfold w1; rewrite screen_event; reflexivity).
    assert (E2 := emits_no_out s w1 Hs). destruct (s w1) as [w2 [[e|]| |x]]; try discriminate. cbn [fst] in E2.
    rewrite (IH _ _ H), E2, E1. cbn [map fst]. now rewrite <- app_assoc.
Qed.

Lemma stages_trace stage l : Forall (fun ns => emits (fun _ => True) (snd ns)) l -> forall w w', run_stages stage l w = (w', Ok None) ->
  forall n s, In (n, s) l -> exists w1 w2 t t', s w1 = (w2, Ok None) /\ w_trace w' = t ++ w_trace w2 /\ w_trace w1 = t' ++ w_trace w.
Proof.
  induction 1 as [|[n s] l Hs Hl IH]; intros w w' H n' s' Hin; [destruct Hin|]. cbn [run_stages] in H.
  unfold bind, announce in H. cbn [snd] in Hs. set (w1 := add_event _ (add_event _ w)) in H.
  assert (E1 : w_trace w1 = [EOut (stage n); EStage n] ++ w_trace w) by reflexivity.
  destruct (Hs w1) as (t2 & E2 & _). destruct (s w1) as [w2 [[e|]| |x]] eqn:Es; try discriminate. cbn [fst] in E2.
  destruct Hin as [X|Hin].
  - assert (s' = s) by congruence. subst s'. destruct (run_stages_emits (fun _ => True) stage l (fun _ => Logic.I) (fun _ => Logic.I) Hl w2) as (t & E & _).
    rewrite H in E. cbn [fst] in E. exists w1, w2, t, [EOut (stage n); EStage n]. auto.
  - destruct (IH _ _ H _ _ Hin) as (wa & wb & t & t' & A1 & A2 & A3). exists wa, wb, t, (t' ++ t2 ++ [EOut (stage n); EStage n]).
    split; [exact A1|]. split; [exact A2|]. rewrite A3, E2, E1. now rewrite <- !app_assoc.
Qed.

Lemma download_gets p u w w' : u <> [] -> as_step (download p u) w = (w', Ok None) -> exists t, w_trace w' = t ++ EGet u :: w_trace w.
Proof.
  intros Hu H. unfold as_step, download in H. apply bind_ok in H. destruct H as (w1 & ok & H & Hr). unfold ret in Hr. assert (w1 = w') by congruence. subst w1. clear Hr.
  apply bind_ok in H. destruct H as (w2 & r & H1 & H2).
  assert (E : w_trace w2 = EGet u :: w_trace w).
  { unfold http_get in H1. destruct u as [|c u]; [now elim Hu|].
    destruct (w_net w) as [|x rest]; [assert (w2 = add_event (EGet (c :: u)) w) by congruence|assert (w2 = set_net rest (add_event (EGet (c :: u)) w)) by congruence]; subst w2; reflexivity. }
  rewrite <- E. destruct r as [|body whole].
  - unfold ret in H2. assert (w' = w2) by congruence. subst w'. now exists [].
  - destruct (emits_save (fun _ => True) (fun _ => Logic.I) p body whole w2) as (t & Et & _). rewrite H2 in Et. eauto.
Qed.

Lemma plain_lastcheck : plain_name (b "lastcheck").
Proof. split; [repeat split; discriminate|]. intros X. vm_compute in X. intuition discriminate. Qed.

(** The update check that the command makes first. *)
Lemma forced_check dir p w K body net o : settings_at w dir K -> wf_fs (w_fs w) -> w_faults w = [] ->
  w_net w = NetBody body true :: net -> offers body o -> newer (of_version o) ->
  exists w', check_for_update p true dir w = (w', Ok (Val (info_of o))) /\ w_faults w' = [] /\ w_net w' = net /\ env w' = env w /\
    wf_fs (w_fs w') /\ w_stdin w' = w_stdin w /\ screen w' = screen w /\
    (exists t, w_trace w' = t ++ w_trace w) /\
    (forall k, k <> b "lastcheck" :: K -> fs_get (w_fs w') k = fs_get (w_fs w) k) /\
    exists c m, fs_get (w_fs w') (b "lastcheck" :: K) = Some (NFile c m).
Proof.
  intros (Hr & Hd & Hl) Hwf Hf Hnet Ho Hnew.
  assert (Hq := quiet_check p true dir w). assert (He := emits_check no_out ltac:(intros; exact Logic.I) ltac:(intros; exact Logic.I) p true dir).
  assert (Hs := emits_no_out _ w He). destruct (He w) as (tr & Htr & _). assert (Hn := check_net p dir w _ _ Hnet).
  assert (Hfi : snd (fetch_info w) = Ok (Val (Some (info_of o)))).
  { apply fetch_answered. exists body. split; [unfold answer; now rewrite Hnet|now apply offers_read]. }
  assert (Hfe := keeps_fetch (w_trace w) (env w) (fun f => f = w_fs w) w ltac:(now apply since_start)). destruct Hfe as (He1 & Hfs1 & _).
  assert (Hck := check_eq p true dir w). unfold do_check in Hck. unfold bind at 1 in Hck.
  destruct (fetch_asks w) as (_ & Hd1 & Hf1 & _). destruct (fetch_info w) as [w1 x]. cbn [fst snd] in *. subst x.
  assert (Hgo : exists w', check_timestamp dir w1 = (w', Ok tt) /\ w_faults w' = [] /\ env w' = env w /\ wf_fs (w_fs w') /\
    (forall k, k <> b "lastcheck" :: K -> fs_get (w_fs w') k = fs_get (w_fs w) k) /\ exists c m, fs_get (w_fs w') (b "lastcheck" :: K) = Some (NFile c m)).
  { unfold check_timestamp, bind at 1.
    assert (Hnow : exists w2 t, now w1 = (w2, Ok t) /\ w_disk w2 = w_disk w /\ w_faults w2 = [] /\ env w2 = env w).
    { unfold now. destruct (w_clock w1) as [|t ts].
      - exists w1, 0%Z. split; [reflexivity|]. split; [exact Hd1|]. split; [congruence|exact He1].
      - exists (set_clock ts w1), t. split; [reflexivity|]. split; [exact Hd1|]. split; [cbn [set_clock w_faults]; congruence|exact He1]. }
    destruct Hnow as (w2 & t & -> & D2 & F2 & E2). unfold bind at 1, io_stat, stat. rewrite D2, Hr.
    unfold is_dir, w_fs in Hd. destruct (fs_get (d_fs (w_disk w)) K) as [nd|] eqn:EK; [|discriminate Hd]. unfold bind at 1, ret at 1.
    change last_check_file with (b "lastcheck").
    assert (Hrn := resolve_new_join (w_disk w) dir K (b "lastcheck") Hr ltac:(unfold is_dir; now rewrite EK) plain_lastcheck).
    destruct (write_file_fine (join_path [dir; b "lastcheck"]) (itoa (t / 1000000000)) 420 w2 (b "lastcheck" :: K) F2 ltac:(rewrite D2; exact Hrn) ltac:(unfold w_fs; rewrite D2; exact Hl)) as (w3 & Hw & F3).
    unfold bind at 1. rewrite Hw. unfold ret. exists w3. split; [reflexivity|]. split; [exact F3|].
    apply write_file_ok in Hw. destruct Hw as (l & L1 & L2 & L3 & L4 & L5 & L6 & L7).
    assert (l = b "lastcheck" :: K) by (rewrite D2 in L1; congruence). subst l. split; [congruence|].
    assert (W2 : w_fs w2 = w_fs w) by (unfold w_fs; now rewrite D2). rewrite W2 in *. split; [|split; [exact L6|eauto]].
    intros e l Hne. destruct (loc_eqb (e :: l) (b "lastcheck" :: K)) eqn:X.
    - apply loc_eqb_eq in X. injection X as -> ->. unfold is_dir. rewrite L6 by (intros Y; apply (f_equal (@length bytes)) in Y; cbn [length] in Y; lia). unfold w_fs. rewrite EK. exact Hd.
    - apply loc_eqb_neq in X. rewrite (L6 _ X) in Hne. assert (Hp := Hwf _ _ Hne). unfold is_dir in *. destruct (loc_eqb l (b "lastcheck" :: K)) eqn:Z.
      + apply loc_eqb_eq in Z. subst l. destruct (fs_get (w_fs w) (b "lastcheck" :: K)) as [[]|]; discriminate.
      + apply loc_eqb_neq in Z. now rewrite (L6 _ Z). }
  destruct Hgo as (w' & Hts & G1 & G2 & G3 & G4 & G5).
  assert (E : check_for_update p true dir w = (w', Ok (Val (info_of o)))).
  { rewrite Hck. unfold bind. rewrite Hts. unfold ret. f_equal. f_equal.
    assert (X : ui_newer (info_of o) = true) by (now apply info_newer). now rewrite X. }
  rewrite E in Hq, Hs, Htr, Hn. cbn [fst] in *. exists w'. destruct Hq as [Hq _]. repeat (split; [eassumption || eauto|]). exact G5.
Qed.

Lemma agreed w : agrees w -> exists q rest, scanln (w_stdin w) = (q, rest) /\ In q [b "y"; b "Y"].
Proof.
  intros (q & rest & Hs & Hw & Hy). rewrite Hs. unfold typed. cbn [flat_map]. rewrite app_nil_r, <- app_assoc. cbn [Datatypes.app].
  exists (utf8_encode q), rest. split; [|exact Hy]. apply scanln_word.
  - unfold no_space. apply forallb_forall. intros r Hr. unfold word in Hw. rewrite Forall_forall in Hw. now rewrite (Hw r Hr).
  - intros ->. cbn in Hy. intuition discriminate.
Qed.

(** What the second part of the command, the update itself, shows and requests. *)
Lemma update_shows C T stage w w' body o rest : w_net w = NetBody body true :: rest -> offers body o -> newer (of_version o) -> of_archive o <> [] ->
  update C T stage w = (w', Ok None) ->
  screen w' = screen w ++ map stage [1; 2; 3; 4; 5; 6; 7] /\ happened w w' (EGet (of_archive o)).
Proof.
  intros Hnet Ho Hnew Ha H. rewrite update_stages in H. unfold bind at 1 in H.
  assert (Hfi : snd (fetch_info w) = Ok (Val (Some (info_of o)))).
  { apply fetch_answered. exists body. split; [unfold answer; now rewrite Hnet|now apply offers_read]. }
  assert (S1 := emits_no_out fetch_info w (emits_fetch no_out Logic.I)). destruct (fetch_asks w) as (T1 & _).
  destruct (fetch_info w) as [w1 x]. cbn [fst snd] in *. subst x.
  assert (X : ui_newer (info_of o) = true) by (now apply info_newer). rewrite X in H. cbn [negb] in H.
  split.
  - rewrite (stages_screen stage (steps C T (info_of o)) ltac:(apply steps_emit; intros; exact Logic.I) _ _ H), S1. reflexivity.
  - destruct (stages_trace stage (steps C T (info_of o)) ltac:(apply steps_emit; intros; exact Logic.I) _ _ H 2 (as_step (download archive_path (ui_archive (info_of o)))) ltac:(right; now left))
      as (wa & wb & t & t' & A1 & A2 & A3).
    apply download_gets in A1; [|exact Ha]. destruct A1 as (t2 & A1). rewrite A3, T1 in A1. rewrite A1 in A2.
    exists (t ++ t2 ++ EGet (of_archive o) :: t' ++ [EGet releases_url]). split.
    + rewrite A2. rewrite <- !app_assoc. cbn [Datatypes.app]. now rewrite <- !app_assoc.
    + apply in_or_app. right. apply in_or_app. right. now left.
Qed.

Lemma ext_event e w X : (exists t, w_trace w = t ++ X) -> exists t, w_trace (add_event e w) = t ++ X.
Proof. intros (t & H). exists (e :: t). cbn [add_event w_trace]. now rewrite H. Qed.

(** The command with two answers of the server, before the question and after it. *)
Lemma command_works C U tz O Y T render dir w m c L old mode K body o data net body2 o2 : unicode_ok U ->
  load_config Y (w_disk w) dir = Ok m -> get_config m = Ok c ->
  wf_fs (w_fs w) -> can_work w -> plainly_installed w L old mode -> ~ in_cache L -> settings_at w dir K -> L <> b "lastcheck" :: K ->
  w_net w = NetBody body true :: net -> offers body o -> newer (of_version o) ->
  good_release C T (set_net net w) data -> answer w 1 body2 -> offers body2 o2 -> agrees w ->
  exists w', process C U tz O Y T render dir CmdUpdate w = (w', Ok tt) /\ upgraded w w' L K data /\
    screen w' = screen w ++ upgrade_dialogue o /\ happened w w' (EGet (of_archive o2)).
Proof.
  intros HU Hm Hc Hwf (Hf & Htmp & Hread) (exe & Hexe & Hdd & Hres & Hold) Hout Hset HLK Hnet Ho Hnew Hgood Ha2 Ho2 Hyes.
  unfold process. rewrite Hm. cbn [run_command]. unfold run_update, bind at 1.
  change (say ?t (MkApp w m init)) with (MkApp (add_event (EOut (t ++ newline)) w) m init, @Ok unit tt). cbv iota.
  set (w1 := add_event _ w). unfold bind at 1, the_conf. cbn [a_conf]. unfold bind at 1, on_world at 1, facade_check. unfold bind at 1, lift. cbn [a_world]. rewrite Hc.
  assert (W1 : w_fs w1 = w_fs w) by reflexivity.
  destruct (forced_check dir (cfg_period c) w1 K body net o Hset Hwf Hf Hnet Ho Hnew) as (w2 & -> & F2 & N2 & E2 & T2 & I2 & S2 & (t2 & X2) & G2 & c2 & m2 & L2).
  cbv iota beta. cbn [a_conf a_vault].
  unfold bind at 1. change (say ?t (MkApp w2 m init)) with (MkApp (add_event (EOut (t ++ newline)) w2) m init, @Ok unit tt). cbv iota. set (w3 := add_event _ w2).
  unfold bind at 1. change (on_world (print ?t) (MkApp w3 m init)) with (MkApp (add_event (EOut t) w3) m init, @Ok unit tt). cbv iota. set (w4 := add_event _ w3).
  destruct (agreed w Hyes) as (q & rest & Hq & Hin).
  unfold bind at 1, on_world at 1, scan. cbn [a_world].
  assert (I4 : w_stdin w4 = w_stdin w) by (change (w_stdin w4) with (w_stdin w2); rewrite I2; reflexivity). rewrite I4, Hq. cbv iota beta. cbn [a_conf a_vault].
  assert (Hlv : lv_from_name U q = Val lv_yes) by (apply (lv_from_name_spec U q HU); destruct Hin as [<-|[<-|[]]]; auto). rewrite Hlv.
  change (lv_value lv_yes) with true. cbv iota. set (w5 := set_stdin rest w4).
  unfold bind at 1. change (say ?t (MkApp w5 m init)) with (MkApp (add_event (EOut (t ++ newline)) w5) m init, @Ok unit tt). cbv iota. set (w6 := add_event _ w5).
  unfold bind at 1, on_world at 1, facade_update. unfold bind at 1, lift. cbn [a_world]. rewrite Hc.
  assert (D6 : w_disk w6 = w_disk w2) by reflexivity. assert (FS6 : w_fs w6 = w_fs w2) by reflexivity.
  assert (Hd2 : w_disk w2 = MkDisk (w_fs w2) (d_cwd (w_disk w)) (d_unreadable (w_disk w)) /\ w_umask w2 = w_umask w /\ w_exe w2 = w_exe w) by exact (env_disk _ _ E2).
  destruct Hd2 as (D2 & U2 & Ex2).
  assert (Hup : updated C T stage_text w6 L data).
  { apply (C106_good_update_works C T stage_text w6 L old mode data).
    - exact T2.
    - split; [exact F2|]. split.
      + intros cc mm. rewrite FS6, G2; [apply Htmp|]. intros X. injection X as X _. discriminate X.
      + intros k Hk. rewrite D6, D2. cbn [d_unreadable]. now apply Hread.
    - exists exe. split; [change (w_exe w6) with (w_exe w2); congruence|]. split; [exact Hdd|].
      assert (Q : fs_get (w_fs w2) L = fs_get (w_fs w) L) by (now apply G2).
      split; [|rewrite FS6, Q; exact Hold]. rewrite D6. apply (resolve_same (w_disk w)).
      + exact Hdd.
      + rewrite D2. reflexivity.
      + intros k _ Hk. rewrite D2. cbn [d_fs]. destruct (loc_eqb k (b "lastcheck" :: K)) eqn:Z.
        * apply loc_eqb_eq in Z. subst k. rewrite L2. discriminate.
        * apply loc_eqb_neq in Z. rewrite (G2 _ Z). exact Hk.
      + intros k _ Hk. rewrite D2. cbn [d_fs]. destruct (loc_eqb k (b "lastcheck" :: K)) eqn:Z.
        * apply loc_eqb_eq in Z. subst k. destruct Hset as (_ & _ & Hset). unfold w_fs in Hset. congruence.
        * apply loc_eqb_neq in Z. unfold is_dir in *. rewrite (G2 _ Z). exact Hk.
      + exact Hres.
    - exact Hout.
    - destruct Hgood as (b1 & o1 & a & sums & r1 & Q1 & Q2). exists b1, o1, a, sums, r1. split; [|exact Q2].
      change (w_net w6) with (w_net w2). rewrite N2. exact Q1. }
  destruct Hup as (w7 & Hup & U7 & V7 & X7). assert (Hup' := Hup). rewrite Hup. cbv iota beta. cbn [a_conf a_vault].
  change (say ?t (MkApp w7 m init)) with (MkApp (add_event (EOut (t ++ newline)) w7) m init, @Ok unit tt). cbn [a_world].
  destruct Hgood as (b1 & o1 & a & sums & r1 & Q1 & Q2 & Q3 & Q4 & _). cbn [set_net w_net] in Q1.
  assert (b1 = body2) by (unfold answer in Ha2; rewrite Hnet, Q1 in Ha2; cbn in Ha2; congruence). subst b1.
  assert (o1 = o2) by exact (C77_one_offer _ _ _ Q2 Ho2). subst o1.
  assert (N6 : w_net w6 = NetBody body2 true :: NetBody a true :: NetBody sums true :: r1) by (change (w_net w6) with (w_net w2); congruence).
  destruct (update_shows _ _ _ _ _ _ _ _ N6 Q2 Q3 Q4 Hup') as (S7 & t7 & H7 & H7').
  eexists. split; [reflexivity|]. split; [|split].
  - unfold upgraded. change (w_fs (add_event ?e w7)) with (w_fs w7). split; [rewrite U7; change (w_umask w6) with (w_umask w2); now rewrite U2|]. split; [exact V7|].
    intros k K1 K2 K3 K4. rewrite (X7 k K1 K2 K3), FS6. now apply G2.
  - rewrite screen_event, S7. unfold w6. rewrite screen_event. unfold w5. rewrite screen_stdin. unfold w4. rewrite screen_event. unfold w3. rewrite screen_event, S2. unfold w1. rewrite screen_event.
    rewrite <- !app_assoc. reflexivity.
  - assert (X1 : exists t, w_trace w = t ++ w_trace w) by (now exists []).
    assert (X6 : exists t6, w_trace w6 = t6 ++ w_trace w).
    { apply ext_event. change (w_trace w5) with (w_trace w4). apply ext_event. apply ext_event. rewrite X2. apply (ext_event (EOut (b "Checking for 1pass application updates..." ++ newline)) w) in X1.
      destruct X1 as (t1 & X1). exists (t2 ++ t1). unfold w1. rewrite X1. apply app_assoc. }
    destruct X6 as (t6 & X6). match goal with |- happened _ (add_event ?e _) _ => exists (e :: t7 ++ t6) end.
    split; [|right; apply in_or_app; left; exact H7'].
    cbn [add_event w_trace]. rewrite H7, X6. cbn [Datatypes.app]. f_equal. apply app_assoc.
Qed.

(** ** C110 *)

(** The user runs update and agrees; the server offers a good release, the same before and after the question; nothing fails.
    Then the command succeeds, the program of that release is installed, the cache is gone, nothing else has changed but the
    time of the last check, and the terminal shows exactly this dialogue. *)
Theorem C110_update_command : forall C U tz O Y T render dir w m c L old mode K body o net data, unicode_ok U ->
  load_config Y (w_disk w) dir = Ok m -> get_config m = Ok c ->
  wf_fs (w_fs w) -> can_work w -> plainly_installed w L old mode -> ~ in_cache L -> settings_at w dir K -> L <> b "lastcheck" :: K ->
  w_net w = NetBody body true :: NetBody body true :: net -> offers body o ->
  good_release C T (set_net (NetBody body true :: net) w) data -> agrees w ->
  exists w', process C U tz O Y T render dir CmdUpdate w = (w', Ok tt) /\ upgraded w w' L K data /\ screen w' = screen w ++ upgrade_dialogue o.
Proof.
  intros C U tz O Y T render dir w m c L old mode K body o net data HU Hm Hc Hwf Hcan Hinst Hout Hset HLK Hnet Ho Hgood Hyes.
  assert (Hnew : newer (of_version o)).
  { destruct Hgood as (b1 & o1 & a & sums & r1 & Q1 & Q2 & Q3 & _). cbn [set_net w_net] in Q1. assert (b1 = body) by congruence. subst b1.
    now rewrite (C77_one_offer _ _ _ Ho Q2). }
  destruct (command_works C U tz O Y T render dir w m c L old mode K body o data (NetBody body true :: net) body o HU Hm Hc Hwf Hcan Hinst Hout Hset HLK Hnet Ho Hnew Hgood
    ltac:(unfold answer; now rewrite Hnet) Ho Hyes) as (w' & H1 & H2 & H3 & _). eauto.
Qed.
Print Assumptions C110_update_command.

(** ** C80, always *)

(** The server is asked twice.  Whatever it offered before the question, what it offers after the question is downloaded and
    installed, and the terminal reports the version offered before. *)
Theorem C80_second_answer_refuted : forall C U tz O Y T render dir w m c L old mode K body o net body2 o2 data, unicode_ok U ->
  load_config Y (w_disk w) dir = Ok m -> get_config m = Ok c ->
  wf_fs (w_fs w) -> can_work w -> plainly_installed w L old mode -> ~ in_cache L -> settings_at w dir K -> L <> b "lastcheck" :: K ->
  w_net w = NetBody body true :: NetBody body2 true :: net -> offers body o -> newer (of_version o) -> offers body2 o2 ->
  good_release C T (set_net (NetBody body2 true :: net) w) data -> agrees w ->
  exists w', process C U tz O Y T render dir CmdUpdate w = (w', Ok tt) /\ upgraded w w' L K data /\
    happened w w' (EGet (of_archive o2)) /\ screen w' = screen w ++ upgrade_dialogue o.
Proof.
  intros C U tz O Y T render dir w m c L old mode K body o net body2 o2 data HU Hm Hc Hwf Hcan Hinst Hout Hset HLK Hnet Ho Hnew Ho2 Hgood Hyes.
  destruct (command_works C U tz O Y T render dir w m c L old mode K body o data (NetBody body2 true :: net) body2 o2 HU Hm Hc Hwf Hcan Hinst Hout Hset HLK Hnet Ho Hnew Hgood
    ltac:(unfold answer; now rewrite Hnet) Ho2 Hyes) as (w' & H1 & H2 & H3 & H4). eauto.
Qed.
Print Assumptions C80_second_answer_refuted.

(** ** Examples *)

Definition cli_tree : fs := [([b "c"], NDir); ([b "bin"], NDir); (exeL, NFile (b "old") 493); ([b "tmp"], NDir)].
Lemma cli_tree_ok : wf_fs cli_tree.
Proof.
  intros e l H. unfold cli_tree in *. destruct (fs_get _ (e :: l)) as [n|] eqn:Eg; [|congruence]. apply fs_get_in in Eg; [|discriminate].
  cbn [map fst] in Eg. repeat (destruct Eg as [Eg|Eg]; [injection Eg as <- <-; reflexivity|]). destruct Eg.
Qed.

Lemma cli_world_fine net input :
  let w := cli_world net input in
  wf_fs (w_fs w) /\ can_work w /\ plainly_installed w exeL (b "old") 493 /\ ~ in_cache exeL /\ settings_at w (b "/c") [b "c"] /\ exeL <> b "lastcheck" :: [b "c"].
Proof.
  cbv zeta. split; [exact cli_tree_ok|]. split; [split; [reflexivity|]; split; [intros c m; vm_compute; discriminate|reflexivity]|].
  split; [exists (b "/bin/1pass"); split; [reflexivity|]; split; [intros H; vm_compute in H; intuition discriminate|]; split; reflexivity|].
  split; [intros H; apply in_cache_below in H; discriminate|]. split; [split; [reflexivity|split; reflexivity]|discriminate].
Qed.

Lemma demo_offer : offers demo_release (MkOffer (b "1.4.0") (b "n") (b "u:a") (b "u:c")) /\ newer (b "1.4.0").
Proof.
  split; [apply (proj1 (read_offers demo_release (MkInfo (b "u:a") (b "n") (b "u:c") true (b "1.4.0")) ) ltac:(vm_compute; reflexivity))|].
  apply newer_number; vm_compute; reflexivity.
Qed.
Lemma later_offer : offers later_release (MkOffer (b "1.9.0") (b "n") (b "u:later") (b "u:sum")) /\ newer (b "1.9.0").
Proof.
  split; [apply (proj1 (read_offers later_release (MkInfo (b "u:later") (b "n") (b "u:sum") true (b "1.9.0")) ) ltac:(vm_compute; reflexivity))|].
  apply newer_number; vm_compute; reflexivity.
Qed.

Lemma release_good w body o : w_net w = [NetBody body true; NetBody (b "tgz") true; NetBody demo_sum true] ->
  offers body o -> newer (of_version o) -> of_archive o <> [] -> of_checksum o <> [] -> good_release toy_crypto demo_tar w (b "new").
Proof.
  intros Hn H1 H2 H3 H4. exists body, o, (b "tgz"), demo_sum, []. split; [exact Hn|]. split; [exact H1|]. split; [exact H2|]. split; [exact H3|]. split; [exact H4|].
  destruct (good_world_release []) as (b0 & o0 & a0 & s0 & r0 & E & _ & _ & _ & _ & G1 & G2). unfold good_world, served in E. cbn [w_net] in E.
  assert (a0 = b "tgz") by congruence. assert (s0 = demo_sum) by congruence. subst a0 s0. auto.
Qed.

Lemma says_y net : agrees (cli_world net (b "y" ++ newline)).
Proof. exists (map vb (b "y")), []. split; [reflexivity|]. split; [repeat constructor|left; reflexivity]. Qed.

Example C110_example :
  let w := cli_world [NetBody demo_release true; NetBody demo_release true; NetBody (b "tgz") true; NetBody demo_sum true] (b "y" ++ newline) in
  (exists m c, load_config toy_yaml (w_disk w) (b "/c") = Ok m /\ get_config m = Ok c) /\
  wf_fs (w_fs w) /\ can_work w /\ plainly_installed w exeL (b "old") 493 /\ ~ in_cache exeL /\ settings_at w (b "/c") [b "c"] /\
  (exists o, offers demo_release o) /\ good_release toy_crypto demo_tar (set_net (tl (w_net w)) w) (b "new") /\ agrees w.
Proof.
  cbv zeta. split; [eexists; eexists; split; reflexivity|].
  destruct (cli_world_fine [NetBody demo_release true; NetBody demo_release true; NetBody (b "tgz") true; NetBody demo_sum true] (b "y" ++ newline)) as (A1 & A2 & A3 & A4 & A5 & _).
  split; [exact A1|]. split; [exact A2|]. split; [exact A3|]. split; [exact A4|]. split; [exact A5|]. destruct demo_offer as [D1 D2]. split; [eauto|].
  split; [|apply says_y]. apply (release_good _ demo_release (MkOffer (b "1.4.0") (b "n") (b "u:a") (b "u:c"))); [reflexivity|exact D1|exact D2|discriminate|discriminate].
Qed.

(** Version 1.4.0 is offered; after the question 1.9.0 is offered, and installed as 1.4.0. *)
Example C80_second_answer_example :
  offers demo_release (MkOffer (b "1.4.0") (b "n") (b "u:a") (b "u:c")) /\ newer (b "1.4.0") /\
  offers later_release (MkOffer (b "1.9.0") (b "n") (b "u:later") (b "u:sum")) /\
  good_release toy_crypto demo_tar (set_net (tl (w_net changing)) changing) (b "new") /\ agrees changing.
Proof.
  destruct demo_offer as [D1 D2], later_offer as [E1 E2]. split; [exact D1|]. split; [exact D2|]. split; [exact E1|]. split; [|apply says_y].
  apply (release_good _ later_release (MkOffer (b "1.9.0") (b "n") (b "u:later") (b "u:sum"))); [reflexivity|exact E1|exact E2|discriminate|discriminate].
Qed.
