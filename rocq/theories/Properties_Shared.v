(** Properties of programs that share the machine with others (C91, C92).  Other programs may do
    anything to the files, at any time the statements do not exclude. *)
From Verif Require Import Base Utf8 Spec_Trim GoStrings GoStringsProof FieldsProof Json Crypto Path Fs FsProof Domain DomainProof
  Session World WorldProof Config Cli CliProof Updater UpdateProof Shared Spec_Release Properties_Update Properties_Config Toy ToyYaml Repos.

(** ** Specification *)

(** Whenever other programs move, they leave the cache directory and the program at [L] alone. *)
Fixpoint polite (stage : nat -> bytes) (L : loc) (ms : list move) (p : running) : Prop :=
  match ms with
  | [] => True
  | Ours :: ms' => polite stage L ms' (advance stage p)
  | Others f :: ms' =>
      (forall k, in_cache k \/ k = L -> fs_get f k = fs_get (w_fs (r_world p)) k) /\ polite stage L ms' (disturb f p)
  end.

(** ** Lemmas *)

Lemma skipn_next {A} k (l : list A) : skipn (S k) l = tl (skipn k l).
Proof. revert l. induction k as [|k IH]; intros [|x l]; try reflexivity. cbn [skipn]. rewrite <- IH. reflexivity. Qed.

Section Polite.
Variable C : crypto.
Variable T : unpacker.
Variable stage : nat -> bytes.
Variable w : world.
Variable L : loc.
Variable exe : bytes.
Variable old : bytes.
Variable mode : N.
Variable info : update_info.
Hypothesis Hexe : w_exe w = Some exe.
Hypothesis Hres : resolve (w_disk w) exe = Some L.
Hypothesis Hout : below cacheL L = false.
Hypothesis Hne : L <> [].
Hypothesis HT : archive_has T (fun e => stays_inside e /\ not_checksum e) w.

Definition fine (f : fs) : Prop := exists content m, fs_get f L = Some (NFile content m) /\
  ((content = old /\ m = mode) \/ exists c, answer w 2 c /\ attests C c content).

Lemma fine_set f l c m : below cacheL l = true -> fine f -> fine (fs_set l (NFile c m) f).
Proof. intros Hl. unfold fine. rewrite fs_get_set_other by congruence. auto. Qed.
Lemma fine_del f l : below cacheL l = true -> fine f -> fine (fs_del l f).
Proof. intros Hl. unfold fine. rewrite fs_get_del_other by congruence. auto. Qed.
Lemma fine_dir f : fine f -> fine (fs_set cacheL NDir f).
Proof. unfold fine. rewrite fs_get_set_other; [auto|]. intros ->. discriminate Hout. Qed.
Lemma fine_tmp f : fine f -> fs_get f [b "tmp"] = None -> fine (fs_set [b "tmp"] NDir f).
Proof.
  intros Hf Hn. unfold fine in *. rewrite fs_get_set_other; [exact Hf|]. intros ->.
  destruct Hf as (c & m & Hf & _). congruence.
Qed.

Notation J := (always (env w) fine).

(** What is known when [k] stages are done. *)
Definition known (k : nat) (v : world) : Prop :=
  J v /\
  match k with
  | 0 | 1 => w_net v = tl (w_net w)
  | 2 => w_net v = tl (tl (w_net w)) /\
      exists a m, answer w 1 a /\ fs_get (w_fs v) (archive_name :: cacheL) = Some (NFile a m)
  | 3 => (exists a m, answer w 1 a /\ fs_get (w_fs v) (archive_name :: cacheL) = Some (NFile a m)) /\
      exists c m, answer w 2 c /\ fs_get (w_fs v) (checksum_name :: cacheL) = Some (NFile c m)
  | 4 => exists c m, answer w 2 c /\ fs_get (w_fs v) (checksum_name :: cacheL) = Some (NFile c m)
  | 5 => exists c data m, answer w 2 c /\ fs_get (w_fs v) (app_name :: cacheL) = Some (NFile data m) /\ attests C c data
  | _ => True
  end.

Lemma known_disturb k v f : (forall l, in_cache l \/ l = L -> fs_get f l = fs_get (w_fs v) l) ->
  known k v -> known k (set_files f v).
Proof.
  intros Hf [HJ HK].
  assert (Hc : forall x, fs_get (w_fs (set_files f v)) (x :: cacheL) = fs_get (w_fs v) (x :: cacheL)).
  { intros x. apply Hf. left. exists [x]. reflexivity. }
  split.
  - destruct HJ as (He & Hi & t & Ht & Hs). split; [exact He|]. split; [|exists t; auto].
    unfold fine in *. change (w_fs (set_files f v)) with f. now rewrite (Hf L (or_intror eq_refl)).
  - destruct k as [|[|[|[|[|[|k]]]]]]; try exact HK; cbn [known] in HK |- *; rewrite ?Hc; exact HK.
Qed.

Lemma known_announce k n v : known k v -> known k (fst (announce stage n v)).
Proof.
  intros [HJ HK]. split; [now apply keeps_announce|].
  destruct k as [|[|[|[|[|[|k]]]]]]; exact HK.
Qed.

Lemma tl_nth {A} (l : list A) n : nth_error (tl l) n = nth_error l (S n).
Proof. destruct l; [|reflexivity]. now destruct n. Qed.

Lemma replace_J v c data m : J v -> answer w 2 c -> fs_get (w_fs v) (app_name :: cacheL) = Some (NFile data m) ->
  attests C c data -> J (fst (as_step (replace_binary binary_path) v)).
Proof.
  intros HJ Hc Hb Ha. unfold as_step, bind at 1.
  assert (Hr : J (fst (replace_binary binary_path v))).
  { unfold replace_binary, bind, executable.
    assert (He := proj1 HJ). unfold env in He. assert (Hx : w_exe v = Some exe) by congruence. rewrite Hx.
    unfold rename. destruct (resolve (w_disk v) binary_path) as [ls|] eqn:Es; [|exact HJ].
    destruct (resolve_new (w_disk v) exe) as [ld|] eqn:Ed; [|exact HJ].
    apply resolve_place in Es. rewrite place_binary in Es. subst ls.
    apply resolve_new_place in Ed.
    assert (ld = L).
    { assert (Hcwd : d_cwd (w_disk v) = d_cwd (w_disk w)) by congruence.
      rewrite Ed, Hcwd. apply resolve_place in Hres. congruence. }
    clear Ed. subst ld. rewrite Hb.
    assert (Hch : J (fst (change (fun f => fs_set L (NFile data m) (fs_del (app_name :: cacheL) f)) v))).
    { apply keeps_change; [|exact HJ]. intros g _. exists data, m. split; [now apply fs_get_set_same|]. right. exists c. auto. }
    destruct (loc_eqb (app_name :: cacheL) L);
      destruct (fs_get (w_fs v) L) as [[c1 m1|]|]; solve [exact HJ | exact Hch]. }
  destruct (replace_binary binary_path v) as [v' [x| |n]]; exact Hr.
Qed.

(** One stage: the invariant holds whatever happens, and more is known if it succeeds. *)
Lemma stage_known k n s rest v : skipn k (steps C T info) = (n, s) :: rest -> known k v ->
  J (fst (s v)) /\ (snd (s v) = Ok None -> known (S k) (fst (s v))).
Proof.
  intros Hs [HJ HK].
  destruct k as [|[|[|[|[|[|[|k]]]]]]]; cbn [skipn steps] in Hs; try (injection Hs as <- <- <-).
  - (* 1 *)
    assert (H1 : J (fst (step1 v))).
    { apply keeps_step1; [exact fine_del|exact fine_dir|exact fine_tmp|exact HJ]. }
    split; [exact H1|]. intros _. split; [exact H1|]. cbn [known]. now rewrite offline_step1.
  - (* 2 *)
    assert (H1 : J (fst (as_step (download archive_path (ui_archive info)) v))).
    { apply keeps_as_step; [|exact HJ]. apply keeps_download; [exact fine_set|]. now rewrite place_archive. }
    split; [exact H1|]. intros Hok. split; [exact H1|].
    destruct (as_step _ v) as [v' r] eqn:E. cbn [fst snd] in *. subst r.
    apply as_step_ok in E. apply download_ok in E. destruct E as (a & rest & wa & E & N & S & _).
    destruct S as (la & Ra & _ & _ & _ & Ga & _ & _). apply resolve_new_place in Ra. rewrite place_archive in Ra. subst la.
    cbn [known] in HK |- *. rewrite HK in E.
    split; [now rewrite N, E|]. eexists a, _. split; [|exact Ga].
    unfold answer. rewrite <- tl_nth, E. reflexivity.
  - (* 3 *)
    assert (H1 : J (fst (as_step (download checksum_path (ui_checksum info)) v))).
    { apply keeps_as_step; [|exact HJ]. apply keeps_download; [exact fine_set|]. now rewrite place_checksum. }
    split; [exact H1|]. intros Hok. split; [exact H1|].
    destruct (as_step _ v) as [v' r] eqn:E. cbn [fst snd] in *. subst r.
    apply as_step_ok in E. apply download_ok in E. destruct E as (c & rest & wc & E & N & S & D & _).
    destruct S as (lc & Rc & _ & _ & _ & Gc & Oc & _). apply resolve_new_place in Rc. rewrite place_checksum in Rc. subst lc.
    cbn [known] in HK |- *. destruct HK as [Hn (a & m & Ha & Hg)]. split.
    + exists a, m. split; [exact Ha|]. rewrite Oc by (intros X; discriminate X). unfold w_fs in *. rewrite D. exact Hg.
    + eexists c, _. split; [|exact Gc]. unfold answer. rewrite Hn in E. rewrite <- tl_nth, <- tl_nth, E. reflexivity.
  - (* 4 *)
    cbn [known] in HK. destruct HK as [(a & m & Ha & Hg) (c & mc & Hc & Hgc)].
    assert (H1 : J (fst (as_step (extract T archive_path cache_dir) v))).
    { apply (keeps_stage4 [] (env w) fine T v a m HJ Hg). intros es proper Hes.
      eapply Forall_impl; [|exact (HT a es proper Ha Hes)]. intros e [He _]. apply entry_fine_inside; [exact fine_set|exact He]. }
    split; [exact H1|]. intros Hok. split; [exact H1|].
    destruct (as_step _ v) as [v' r] eqn:E. cbn [fst snd] in *. subst r.
    apply as_step_ok in E. unfold extract in E. apply bind_ok in E. destruct E as (v1 & o & Hr & E).
    unfold io_read in Hr. assert (v1 = v) by congruence. subst v1.
    assert (Hro : read_file (w_disk v) archive_path = o) by congruence.
    destruct o as [s|]; [|discriminate].
    assert (s = a).
    { apply read_place in Hro. destruct Hro as (m' & _ & Hro). rewrite place_archive in Hro. unfold w_fs in Hg. congruence. }
    subst s. destruct (T a) as [[es proper]|] eqn:Et; [|discriminate].
    assert (Hk := entries_ok (checksum_name :: cacheL) proper es _ _ E).
    exists c, mc. split; [exact Hc|]. rewrite Hk; [exact Hgc|].
    assert (Hsafe := HT a es proper Ha Et). rewrite Forall_forall in Hsafe.
    apply Forall_forall. intros e He Hreg. destruct (Hsafe e He) as [Hs1 Hs2].
    rewrite lexical_parts by now apply Hs1. intros Heq.
    apply (Hs2 Hreg). change (checksum_name :: cacheL) with ([checksum_name] ++ cacheL) in Heq.
    apply app_inv_tail in Heq. apply (f_equal (@rev bytes)) in Heq. rewrite rev_involutive in Heq. exact Heq.
  - (* 5 *)
    assert (H1 : J (fst (validate_checksum C binary_path checksum_path v))) by now rewrite validate_same.
    split; [exact H1|]. intros Hok. split; [exact H1|].
    destruct (validate_checksum C binary_path checksum_path v) as [v' r] eqn:E. cbn [fst snd] in *. subst r.
    apply validate_ok in E. destruct E as (text & data & -> & Ht & Hd & Hv).
    apply read_place in Hd. destruct Hd as (mb & _ & Hb). rewrite place_binary in Hb.
    apply read_place in Ht. destruct Ht as (mt & _ & Ht). rewrite place_checksum in Ht.
    cbn [known] in HK |- *. destruct HK as (c & mc & Hc & Hgc). exists c, data, mb. split; [exact Hc|]. split; [exact Hb|].
    unfold w_fs in *. assert (c = text) by congruence. now subst c.
  - (* 6 *)
    cbn [known] in HK. destruct HK as (c & data & m & Hc & Hb & Ha).
    assert (H1 := replace_J v c data m HJ Hc Hb Ha). split; [exact H1|]. intros _. now split.
  - (* 7 *)
    assert (H1 : J (fst (as_step (remove_all cache_dir) v))).
    { apply keeps_as_step; [|exact HJ]. apply keeps_remove_cache. exact fine_del. }
    split; [exact H1|]. intros _. now split.
  - destruct k; discriminate Hs.
Qed.

(** The state of an update on its way. *)
Definition tracked (p : running) : Prop :=
  J (r_world p) /\
  (r_answer p = None -> exists k, r_left p = skipn k (steps C T info) /\ r_left p <> [] /\ known k (r_world p)).

Lemma tracked_advance p : tracked p -> tracked (advance stage p).
Proof.
  intros [HJ HK]. unfold advance. destruct (r_answer p) as [r|] eqn:Er; [split; [exact HJ|congruence]|].
  destruct (HK eq_refl) as (k & Hl & Hne' & Hk). destruct (r_left p) as [|[n s] rest] eqn:El; [congruence|].
  unfold bind. change (announce stage n (r_world p)) with (fst (announce stage n (r_world p)), @Ok unit tt). cbn iota.
  assert (Hk' := known_announce k n _ Hk). set (v := fst (announce stage n (r_world p))) in *.
  destruct (stage_known k n s rest v (eq_sym Hl) Hk') as [H1 H2].
  destruct (s v) as [v' [[e|]| |m]]; cbn [fst snd] in *; try (split; [exact H1|discriminate]).
  split; [exact H1|]. cbn [r_answer r_left r_world]. destruct rest as [|x rest]; [discriminate|]. intros _.
  exists (S k). split; [|split; [discriminate|now apply H2]].
  rewrite skipn_next, <- Hl. reflexivity.
Qed.

Lemma tracked_share ms : forall p, polite stage L ms p -> tracked p -> tracked (share stage ms p).
Proof.
  induction ms as [|[|f] ms IH]; intros p Hp Ht; cbn [share polite] in *; [exact Ht| |].
  - apply IH; [exact Hp|]. now apply tracked_advance.
  - destruct Hp as [Hf Hp]. apply IH; [exact Hp|]. destruct Ht as [HJ HK].
    assert (HJ' : J (r_world (disturb f p))).
    { apply (known_disturb 6 (r_world p) f); [exact Hf|]. now split. }
    split; [exact HJ'|]. intros Hn. destruct (HK Hn) as (k & Hl & Hne' & Hk). exists k.
    split; [exact Hl|]. split; [exact Hne'|]. now apply known_disturb.
Qed.
End Polite.

(** ** C91 *)

(** While others stay out of the cache directory and away from the program, whatever else they do:
    at every moment the installed program is the old one, or one that the checksum file
    sent by the server attests (the archive as in C50). *)
Theorem C91_left_alone_partial : forall C T stage w L old mode ms,
  w_trace w = [] -> installed w L old mode -> ~ in_cache L ->
  archive_has T (fun e => stays_inside e /\ not_checksum e) w ->
  polite stage L ms (begin_update C T w) ->
  let p := share stage ms (begin_update C T w) in
  forall f, In f (w_fs (r_world p) :: moments (r_world p)) ->
  exists content m, fs_get f L = Some (NFile content m) /\
    ((content = old /\ m = mode) \/ exists c, answer w 2 c /\ attests C c content).
Proof.
  intros C T stage w L old mode ms Ht (exe & Hexe & Hres & Hold) Hout HT Hp p f Hf.
  assert (Hb : below cacheL L = false).
  { destruct (below cacheL L) eqn:Eb; [|reflexivity]. elim Hout. now apply in_cache_below. }
  assert (Hne : L <> []) by (intros ->; unfold fs_get in Hold; discriminate Hold).
  set (I := fine C w L old mode).
  assert (H0 : always (env w) I (fst (fetch_info w))).
  { apply keeps_fetch. apply always_nil; [exact Ht|reflexivity|]. exists old, mode. auto. }
  assert (Hfin : always (env w) I (r_world p)).
  { assert (Hr : exists info, tracked C T w L old mode info (begin_update C T w)).
    { exists (match snd (fetch_info w) with Ok (Val (Some i)) => i | _ => MkInfo [] [] [] false [] end).
      assert (Hn := fetch_net w). unfold begin_update.
      destruct (fetch_info w) as [w0 [[[i|]|e]| |n]]; cbn [fst snd] in *; try (split; [exact H0|discriminate]).
      destruct (ui_newer i); [|split; [exact H0|discriminate]].
      split; [exact H0|]. intros _. exists 0. split; [reflexivity|]. split; [discriminate|]. split; [exact H0|exact Hn]. }
    destruct Hr as [info Hr].
    exact (proj1 (tracked_share C T stage w L exe old mode info Hexe Hres Hb Hne HT ms _ Hp Hr)). }
  apply always_moments in Hfin. destruct Hfin as (_ & Hi & Hm). rewrite Forall_forall in Hm.
  destruct Hf as [<-|Hf]; [exact Hi|exact (Hm f Hf)].
Qed.
Print Assumptions C91_left_alone_partial.

(** Whatever others did before, to any file: if the stages 5 and 6 are not disturbed, a file that
    appears is one that the checksum file on the disk attests. *)
Theorem C91_undisturbed_end_partial : forall C T stage w ms,
  let p := share stage ms (begin_update C T w) in
  r_answer p = None -> map fst (r_left p) = [5; 6; 7] ->
  let q := share stage [Ours; Ours] p in
  forall k content m, fs_get (w_fs (r_world q)) k = Some (NFile content m) ->
  fs_get (w_fs (r_world p)) k = Some (NFile content m) \/
  exists text m', fs_get (w_fs (r_world p)) [b "checksum.md5"; b "1pass"; b "tmp"] = Some (NFile text m') /\ attests C text content.
Proof.
  intros C T stage w ms p Ha Hl q k content m Hk.
  assert (Hleft : exists info, r_left p = skipn 4 (steps C T info)).
  { assert (G : forall ms p0, (exists info j, r_left p0 = skipn j (steps C T info)) -> exists info j, r_left (share stage ms p0) = skipn j (steps C T info)).
    { clear. induction ms as [|[|f] ms IH]; intros p0 H0; cbn [share]; [exact H0| |]; apply IH; [|exact H0].
      unfold advance. destruct (r_answer p0); [exact H0|]. destruct H0 as (info & j & H0).
      destruct (r_left p0) as [|[n s] rest] eqn:E; [exists info, j; rewrite E; exact H0|].
      exists info, (S j). rewrite skipn_next, <- H0. cbn [tl]. destruct ((announce stage n;;; s)%st (r_world p0)) as [v [[e|]| |x]]; reflexivity. }
    destruct (G ms (begin_update C T w)) as (info & j & Hj).
    - unfold begin_update. destruct (fetch_info w) as [w0 [[[i|]|e]| |n]]; try (exists (MkInfo [] [] [] false []), 7; reflexivity).
      destruct (ui_newer i); [exists i, 0; reflexivity|exists i, 7; reflexivity].
    - exists info. fold p in Hj. rewrite Hj in Hl |- *. destruct j as [|[|[|[|[|[|[|j]]]]]]]; try discriminate Hl; [reflexivity|].
      destruct j; discriminate Hl. }
  destruct Hleft as [info Hleft]. cbn [skipn steps] in Hleft.
  unfold q in Hk. cbn [share] in Hk. unfold advance at 2 in Hk. rewrite Ha, Hleft in Hk. unfold bind in Hk.
  change (announce stage 5 (r_world p)) with (fst (announce stage 5 (r_world p)), @Ok unit tt) in Hk. cbn iota in Hk.
  set (v := fst (announce stage 5 (r_world p))) in Hk. assert (Hv : w_fs v = w_fs (r_world p)) by reflexivity.
  assert (Hsame := validate_same C binary_path checksum_path v).
  destruct (validate_checksum C binary_path checksum_path v) as [v' r] eqn:E. cbn [fst] in Hsame. subst v'.
  destruct r as [[e|]| |n]; try (left; exact Hk).
  apply validate_ok in E. destruct E as (text & data & _ & Ht & Hd & Hat).
  apply read_place in Hd. destruct Hd as (mb & _ & Hb). rewrite place_binary in Hb.
  apply read_place in Ht. destruct Ht as (mt & _ & Ht). rewrite place_checksum in Ht.
  unfold advance in Hk. cbn [r_answer r_left r_world] in Hk. unfold bind in Hk.
  change (announce stage 6 v) with (fst (announce stage 6 v), @Ok unit tt) in Hk. cbn iota in Hk.
  set (u := fst (announce stage 6 v)) in Hk. assert (Hu : w_disk u = w_disk v) by reflexivity. clearbody u.
  assert (Hr : forall x, fs_get (w_fs (fst (as_step (replace_binary binary_path) u))) k = Some x ->
    fs_get (w_fs u) k = Some x \/ x = NFile data mb).
  { intros x. unfold as_step, bind at 1. assert (Hrep : fs_get (w_fs (fst (replace_binary binary_path u))) k = Some x ->
      fs_get (w_fs u) k = Some x \/ x = NFile data mb).
    { unfold replace_binary, bind, executable. destruct (w_exe u) as [exe|]; [|now left]. unfold rename.
      destruct (resolve (w_disk u) binary_path) as [ls|] eqn:Es; [|now left].
      destruct (resolve_new (w_disk u) exe) as [ld|] eqn:Ed; [|now left].
      apply resolve_place in Es. rewrite place_binary in Es. subst ls.
      assert (Hbu : fs_get (w_fs u) (app_name :: cacheL) = Some (NFile data mb)) by (unfold w_fs; rewrite Hu; exact Hb).
      rewrite Hbu.
      assert (Hch : fs_get (w_fs (fst (change (fun f => fs_set ld (NFile data mb) (fs_del (app_name :: cacheL) f)) u))) k = Some x ->
        fs_get (w_fs u) k = Some x \/ x = NFile data mb).
      { assert (Hg : forall f, fs_get (fs_set ld (NFile data mb) (fs_del (app_name :: cacheL) f)) k = Some x ->
          fs_get f k = Some x \/ x = NFile data mb).
        { intros f. destruct k as [|k0 k']; [now left|]. rewrite fs_get_set by discriminate.
          destruct (loc_eqb (k0 :: k') ld); [right; congruence|]. rewrite fs_get_del by discriminate.
          destruct (loc_eqb (k0 :: k') (app_name :: cacheL)); [discriminate|now left]. }
        unfold change. destruct (w_faults u) as [|[n|] fl]; cbn [fst]; [apply Hg|now left|apply Hg]. }
      destruct (loc_eqb (app_name :: cacheL) ld);
        destruct (fs_get (w_fs u) ld) as [[c1 m1|]|]; solve [now left | exact Hch]. }
    destruct (replace_binary binary_path u) as [u' [x'| |n]]; exact Hrep. }
  assert (Hk' : fs_get (w_fs (fst (as_step (replace_binary binary_path) u))) k = Some (NFile content m)).
  { destruct (as_step (replace_binary binary_path) u) as [u' [[e|]| |n]]; exact Hk. }
  destruct (Hr _ Hk') as [H|H].
  - left. unfold w_fs in *. rewrite Hu in H. exact H.
  - right. exists text, mt. split; [exact Ht|]. congruence.
Qed.
Print Assumptions C91_undisturbed_end_partial.

Lemma served_checksum a c x : answer (update_world (served a c)) 2 x -> x = c.
Proof. unfold answer, served, update_world. cbn [w_net nth_error]. congruence. Qed.

(** The archives of a good and of a broken download. *)
Definition two_tars : unpacker := fun s =>
  if bytes_eqb s (b "tgz") then Some ([MkEntry (b "1pass") true (b "new") true], true)
  else if bytes_eqb s (b "bad") then Some ([MkEntry (b "1pass") true (b "broken") true], true) else None.
Definition overlapping : list turn := repeat First 5 ++ repeat Second 4 ++ repeat First 2 ++ [Second].

(** Two updates at the same time: the first one reports success and has installed what the second one
    had unpacked and not checked yet, which no checksum that was sent attests.  Alone,
    each would have done the right thing. *)
Theorem C91_two_updates_refuted : exists T wa wb ts L old mode content m,
  w_trace wa = [] /\ w_disk wa = w_disk wb /\ installed wa L old mode /\ installed wb L old mode /\ ~ in_cache L /\
  archive_has T (fun e => stays_inside e /\ not_checksum e) wa /\ archive_has T (fun e => stays_inside e /\ not_checksum e) wb /\
  let pq := two (fun _ => []) ts (begin_update toy_crypto T wa) (begin_update toy_crypto T wb) in
  r_answer (fst pq) = Some (Ok None) /\ r_answer (snd pq) <> None /\ r_answer (snd pq) <> Some (Ok None) /\
  fs_get (w_fs (r_world (fst pq))) L = Some (NFile content m) /\ content <> old /\
  forall c, answer wa 2 c \/ answer wb 2 c -> ~ attests toy_crypto c content.
Proof.
  assert (HT : forall a c, a = b "tgz" \/ a = b "bad" ->
    archive_has two_tars (fun e => stays_inside e /\ not_checksum e) (update_world (served a c))).
  { intros a c Ha x es proper Hx. assert (x = a) by (apply served_archive in Hx; exact Hx). subst x.
    destruct Ha as [->| ->]; unfold two_tars; vm_compute bytes_eqb; cbn iota; intros [= <- _];
      (constructor; [|constructor]); split; intros H; vm_compute; intuition discriminate. }
  exists two_tars, (update_world (served (b "tgz") demo_sum)), (update_world (served (b "bad") demo_sum)), overlapping, exeL, (b "old"), 493%N, (b "broken"), 420%N.
  split; [reflexivity|]. split; [reflexivity|]. split; [apply update_world_installed|]. split; [apply update_world_installed|].
  split; [intros H; apply in_cache_below in H; discriminate|].
  split; [apply HT; auto|]. split; [apply HT; auto|]. cbn zeta.
  set (pq := two _ _ _ _).
  assert (E : (r_answer (fst pq), r_answer (snd pq), fs_get (w_fs (r_world (fst pq))) exeL) =
    (Some (Ok None), Some (Ok (Some io_error)), Some (NFile (b "broken") 420))) by (vm_compute; reflexivity).
  apply pair_equal_spec in E. destruct E as [E E3]. apply pair_equal_spec in E. destruct E as [E1 E2].
  split; [exact E1|]. rewrite E2. split; [discriminate|]. split; [discriminate|]. split; [exact E3|]. split; [discriminate|].
  intros c Hc Hat. assert (c = demo_sum) by (destruct Hc as [Hc|Hc]; apply served_checksum in Hc; exact Hc). subst c.
  apply fields_first_iff in Hat. destruct Hat as [rest Hat]. vm_compute in Hat. discriminate Hat.
Qed.
Print Assumptions C91_two_updates_refuted.

(** An update that others do not disturb although they write elsewhere. *)
Definition elsewhere (f : fs) : fs := fs_set [b "note"; b "tmp"] (NFile (b "x") 420) f.

Example C91_example :
  let w := update_world (served (b "tgz") demo_sum) in
  let p := share (fun _ => []) (repeat Ours 4) (begin_update toy_crypto two_tars w) in
  let ms := repeat Ours 4 ++ [Others (elsewhere (w_fs (r_world p)))] ++ repeat Ours 3 in
  polite (fun _ => []) exeL ms (begin_update toy_crypto two_tars w) /\
  r_answer p = None /\ map fst (r_left p) = [5; 6; 7] /\
  fs_get (w_fs (r_world (share (fun _ => []) ms (begin_update toy_crypto two_tars w)))) exeL = Some (NFile (b "new") 420).
Proof.
  cbn zeta. set (w := update_world _). set (p := share _ (repeat Ours 4) _).
  split.
  - assert (G : forall n ms p0, polite (fun _ => []) exeL (repeat Ours n ++ ms) p0 <-> polite (fun _ => []) exeL ms (share (fun _ => []) (repeat Ours n) p0)).
    { induction n as [|n IH]; intros ms p0; [reflexivity|]. cbn [repeat Datatypes.app polite share]. apply IH. }
    rewrite G. fold p. cbn [Datatypes.app polite]. split; [|cbn; tauto].
    intros k Hk. unfold elsewhere. apply fs_get_set_other. intros ->. destruct Hk as [[x Hx]|Hx]; [|discriminate Hx].
    change [b "note"; b "tmp"] with ([b "note"] ++ [b "tmp"]) in Hx. change [b "1pass"; b "tmp"] with ([b "1pass"] ++ [b "tmp"]) in Hx.
    rewrite app_assoc in Hx. apply app_inj_tail in Hx. destruct Hx as [Hx _].
    change [b "note"] with ([] ++ [b "note"]) in Hx. apply app_inj_tail in Hx. destruct Hx as [_ Hx]. discriminate Hx.
  - split; [vm_compute; reflexivity|]. split; vm_compute; reflexivity.
Qed.

(** ** C92 *)

Lemma meanwhile_result C U tz O Y T render dir f w w' :
  yaml_ok Y -> process_meanwhile C U tz O Y T render dir CmdConfigure f w = (w', Ok tt) ->
  exists c m m', load_config Y (w_disk w) dir = Ok (Some m) /\ get_config (Some m) = Ok c /\
    holds Y (w_disk w') dir m' /\ get_config (Some m') = Ok (dialogue U c (w_stdin w)) /\
    forall k, ~ In k Properties_Config.known -> mget k m' = mget k m.
Proof.
  intros HY H. unfold process_meanwhile in H. destruct (load_config Y (w_disk w) dir) as [m| |n] eqn:El; try discriminate.
  cbn [run_command] in H. destruct (configure U Y dir (MkApp (set_files f w) m init)) as [a r] eqn:Ec.
  assert (Hr : r = Ok tt) by congruence. assert (Hw : a_world a = w') by congruence. clear H. subst r w'.
  apply configure_ok in Ec. cbn [a_world a_conf] in Ec. destruct Ec as (c & a1 & w2 & m2 & Hc & _ & _ & Hs & _ & Hd & _).
  destruct m as [m|]; [|discriminate].
  assert (Hn := load_nodup _ _ _ _ HY El).
  destruct (save_holds _ _ _ _ _ _ _ HY Hn Hs) as (m' & _ & Hh & G1 & G2 & G3 & G4 & G5).
  exists c, m, m'. split; [reflexivity|]. split; [exact Hc|]. split; [rewrite Hd; exact Hh|]. split; [now apply get_config_full|exact G5].
Qed.

(** The settings in the file and everything else there. *)
Definition in_file (Y : yaml) (D : disk) (dir : bytes) (c : config) (other : bytes -> option yval) : Prop :=
  exists m, holds Y D dir m /\ get_config (Some m) = Ok c /\ forall k, ~ In k Properties_Config.known -> mget k m = other k.

(** Pressing ENTER at every question writes what was in the file when the program started, whatever
    others do meanwhile: all is kept if they do not change that file. *)
Theorem C92_nothing_changed_partial : forall C U tz O Y T render dir f w w' c other rest,
  yaml_ok Y -> unicode_ok U -> in_file Y (w_disk w) dir c other ->
  w_stdin w = typed [[]; []; []; []] ++ rest ->
  process_meanwhile C U tz O Y T render dir CmdConfigure f w = (w', Ok tt) ->
  in_file Y (w_disk w') dir c other.
Proof.
  intros C U tz O Y T render dir f w w' c other rest HY HU (m0 & (s & Hr & Hp) & Hc & Ho) Hin H.
  destruct (meanwhile_result _ _ _ _ _ _ _ _ _ _ _ HY H) as (c' & m & m' & Hl & Hc' & Hh & Hd & Hk).
  rewrite (load_read _ _ _ s Hr), Hp in Hl. assert (m = m0) by congruence. subst m0.
  assert (c' = c) by congruence. subst c'. exists m'. split; [exact Hh|]. split; [|intros k Hn; rewrite Hk by exact Hn; now apply Ho].
  rewrite Hd. unfold typed in Hin. cbn [flat_map] in Hin. rewrite <- !app_assoc in Hin. cbn [Datatypes.app] in Hin.
  unfold dialogue. rewrite Hin.
  change (10%N :: 10%N :: 10%N :: 10%N :: rest) with ([] ++ 10%N :: 10%N :: 10%N :: 10%N :: rest).
  rewrite scanln_line by reflexivity. rewrite yes_branch by exact HU.
  destruct (in_dec _ _ _) as [Hi|_]; [vm_compute in Hi; intuition discriminate|].
  change (10%N :: 10%N :: 10%N :: rest) with ([] ++ 10%N :: 10%N :: 10%N :: rest). rewrite scanln_line by reflexivity.
  change (10%N :: 10%N :: rest) with ([] ++ 10%N :: 10%N :: rest). rewrite scanln_line by reflexivity.
  change (10%N :: rest) with ([] ++ 10%N :: rest). rewrite scanln_line by reflexivity.
  destruct c as [t n pr v]. reflexivity.
Qed.
Print Assumptions C92_nothing_changed_partial.

Definition enter4 : list rune := [10; 10; 10; 10]%N.
Definition answers_n : list rune := [10; 110; 10; 10; 10]%N.

(** But what another run of the program saved meanwhile is undone, by a user who only pressed ENTER. *)
Theorem C92_other_change_lost_refuted : exists C U tz O Y T render dir w1 w2 w2' w1' c c' other,
  yaml_ok Y /\ unicode_ok U /\ w_disk w1 = w_disk w2 /\
  (* the other run switches the notifications off *)
  process C U tz O Y T render dir CmdConfigure w2 = (w2', Ok tt) /\
  in_file Y (w_disk w1) dir c other /\ cfg_notify c = true /\
  in_file Y (w_disk w2') dir c' other /\ cfg_notify c' = false /\
  (* this one had started before and asks its questions after that *)
  w_stdin w1 = typed [[]; []; []; []] /\
  process_meanwhile C U tz O Y T render dir CmdConfigure (w_fs w2') w1 = (w1', Ok tt) /\
  in_file Y (w_disk w1') dir c other.
Proof.
  set (render := fun _ : list (list bytes) => @nil ascii).
  set (w1 := set_stdin enter4 conf_world). set (w2 := set_stdin answers_n conf_world).
  set (P2 := process toy_crypto latin1 (fun _ => 0%Z) backwards toy_yaml demo_tar render (b "/c") CmdConfigure w2).
  set (P1 := process_meanwhile toy_crypto latin1 (fun _ => 0%Z) backwards toy_yaml demo_tar render (b "/c") CmdConfigure (w_fs (fst P2)) w1).
  exists toy_crypto, latin1, (fun _ => 0%Z), backwards, toy_yaml, demo_tar, render, (b "/c"), w1, w2, (fst P2), (fst P1),
    (MkConfig 5 true 1 (b "/v")), (MkConfig 5 false 1 (b "/v")), (fun k => mget k demo_settings).
  assert (S2 : snd P2 = Ok tt) by (vm_compute; reflexivity).
  assert (S1 : snd P1 = Ok tt) by (vm_compute; reflexivity).
  assert (E2 : P2 = (fst P2, Ok tt)) by (rewrite <- S2; apply surjective_pairing).
  assert (E1 : P1 = (fst P1, Ok tt)) by (rewrite <- S1; apply surjective_pairing).
  assert (Hl : load_config toy_yaml (w_disk w1) (b "/c") = Ok (Some demo_settings)) by (vm_compute; reflexivity).
  assert (Hi : in_file toy_yaml (w_disk w1) (b "/c") (MkConfig 5 true 1 (b "/v")) (fun k => mget k demo_settings)).
  { exists demo_settings. split; [eexists; split; vm_compute; reflexivity|]. split; [vm_compute; reflexivity|]. auto. }
  split; [exact toy_yaml_ok|]. split; [exact latin1_ok|]. split; [reflexivity|]. split; [exact E2|].
  split; [exact Hi|]. split; [reflexivity|]. split.
  { unfold P2 in E2. rewrite <- meanwhile_nothing in E2.
    destruct (meanwhile_result _ _ _ _ _ _ _ _ _ _ _ toy_yaml_ok E2) as (c & m & m' & Hm & Hc & Hh & Hd & Hk).
    change (w_disk w2) with (w_disk w1) in Hm. rewrite Hl in Hm. assert (m = demo_settings) by congruence. subst m.
    exists m'. split; [rewrite meanwhile_nothing in Hh; exact Hh|]. split; [|exact Hk]. rewrite Hd.
    assert (c = MkConfig 5 true 1 (b "/v")).
    { assert (Hx : get_config (Some demo_settings) = Ok (MkConfig 5 true 1 (b "/v"))) by (vm_compute; reflexivity). congruence. }
    subst c. vm_compute. reflexivity. }
  split; [reflexivity|]. split; [reflexivity|]. split; [exact E1|].
  exact (C92_nothing_changed_partial _ _ _ _ _ _ _ _ _ w1 _ _ _ [] toy_yaml_ok latin1_ok Hi eq_refl E1).
Qed.
Print Assumptions C92_other_change_lost_refuted.
