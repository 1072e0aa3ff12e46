(** Properties of looking for updates (C59, C60, C77).  Clocks, files and servers are arbitrary. *)
From Verif Require Import Base Utf8 Spec_Trim Spec_Numeral GoStrings GoStringsProof FieldsProof Json Path Fs FsProof Domain DomainProof
  World WorldProof Config Updater UpdateProof Float64 RoundProof ThrottleProof Spec_Release.

(** ** Specification *)

Definition releases_url : bytes := b "https://api.github.com/repos/mashmb/1pass/releases".

(** The file with the time of the last check. *)
Definition check_file (dir : bytes) : bytes := join_path [dir; b "lastcheck"].

(** It holds a number of seconds since 1970: a decimal numeral, blanks around it do not matter. *)
Definition last_check (D : disk) (dir : bytes) (s : Z) : Prop := exists text t,
  read_file D (check_file dir) = Some text /\ trimmed text t /\ numeral t s /\ (min_int64 <= s <= max_int64)%Z.

(** The time that has passed, in nanoseconds (forth or back). *)
Definition apart (now s : Z) : Z := Z.abs (now - s * 1000000000).
Definition days (k : Z) : Z := (k * 86400000000000)%Z.

(** What happened between two states: the requests sent. *)
Definition asked (w w' : world) : Prop := exists t, w_trace w' = t ++ w_trace w /\ In (EGet releases_url) t.
Definition nothing_asked (w w' : world) : Prop := exists t, w_trace w' = t ++ w_trace w /\ forall u, ~ In (EGet u) t.

(** ** Lemmas *)

Lemma not_asked w w' : nothing_asked w w' -> ~ asked w w'.
Proof.
  intros (t & H1 & H2) (t' & H1' & H3). rewrite H1 in H1'. apply app_inv_tail in H1'. subst t'. exact (H2 _ H3).
Qed.

Definition start (w : world) : Z := match w_clock w with t :: _ => t | [] => 0%Z end.
Definition rest_clock (w : world) : world := match w_clock w with _ :: ts => set_clock ts w | [] => w end.

Lemma should_check_eq period dir w :
  let r := read_file (w_disk w) (check_file dir) in
  let p := parse_int (trim_space (match r with Some x => x | None => [] end)) in
  should_check period dir w =
  (rest_clock w, Ok ((match stat (w_disk w) (check_file dir) with None => true | Some _ => false end)
     || (match r with None => true | Some _ => false end) || negb (snd p)
     || (period <=? days_int (duration (start w - fst p * 1000000000)))%Z)).
Proof.
  cbn zeta. unfold should_check, bind, io_stat, io_read, now, start, rest_clock.
  change last_check_file with (b "lastcheck"). fold (check_file dir).
  destruct (parse_int _) as [s fine]. unfold days_int. generalize f64_to_int64 days_between duration. intros f1 f2 f3.
  destruct (w_clock w); reflexivity.
Qed.

Lemma apart_duration t s : (apart t s <= max_int64)%Z ->
  duration (t - s * 1000000000) = (t - s * 1000000000)%Z.
Proof. unfold apart, duration, min_int64, max_int64. intros H. lia. Qed.

Lemma rest_clock_same w : w_trace (rest_clock w) = w_trace w /\ w_disk (rest_clock w) = w_disk w /\ w_net (rest_clock w) = w_net w.
Proof. unfold rest_clock. destruct (w_clock w); auto. Qed.

Lemma itoa_trim z : trim_space (itoa z) = itoa z.
Proof.
  apply trim_space_all_plain.
  assert (H : forall n, forallb plain_byte (dec_of_N n) = true).
  { intros n. assert (Hd := dec_of_N_digits n). rewrite forallb_forall in *. intros c Hc. specialize (Hd c Hc).
    unfold is_digit, plain_byte in *. destruct c as [[] [] [] [] [] [] [] []]; vm_compute in Hd |- *; congruence. }
  unfold itoa. destruct (z <? 0)%Z; [|apply H]. cbn [forallb]. now rewrite H.
Qed.

Lemma fetch_asks w : w_trace (fst (fetch_info w)) = EGet releases_url :: w_trace w /\ w_disk (fst (fetch_info w)) = w_disk w /\
  w_faults (fst (fetch_info w)) = w_faults w /\ w_clock (fst (fetch_info w)) = w_clock w.
Proof.
  unfold fetch_info, bind, http_get. change github_releases with releases_url.
  assert (E : exists c u, releases_url = c :: u) by (eexists; eexists; reflexivity). destruct E as (c & u & ->).
  destruct (w_net w) as [|[|body [|]] rest]; auto.
Qed.

(** What follows once the decision to ask has been made. *)
Definition do_check (dir : bytes) : io (eres update_info) :=
  (r <- fetch_info ;;
   match r with
   | Err e => ret (Err e)
   | Val None => check_timestamp dir ;;; ret (Err ErrNoUpdate)
   | Val (Some info) => check_timestamp dir ;;; ret (if ui_newer info then Val info else Err ErrNoUpdate)
   end)%st.

Lemma check_eq period force dir w : check_for_update period force dir w =
  match (if force then (w, Ok true) else should_check period dir w) with
  | (w1, Ok true) => do_check dir w1
  | (w1, Ok false) => (w1, Ok (Err ErrNoUpdate))
  | (w1, Panic) => (w1, Panic)
  | (w1, Exit n) => (w1, Exit n)
  end.
Proof.
  unfold check_for_update, bind at 1. destruct force; cbn [ret negb]; [reflexivity|].
  destruct (should_check period dir w) as [w1 [[|]| |n]]; reflexivity.
Qed.

Lemma do_check_asks dir w : asked w (fst (do_check dir w)).
Proof.
  unfold do_check, bind at 1. destruct (fetch_asks w) as (Ht & _). destruct (fetch_info w) as [w1 r]. cbn [fst] in Ht.
  assert (H0 : asked w w1) by (exists [EGet releases_url]; split; [exact Ht|now left]).
  assert (Hts : forall y : eres update_info, asked w (fst ((check_timestamp dir ;;; ret y)%st w1))).
  { intros y. assert (Hem := emits_bind (fun _ => True) (check_timestamp dir) (fun _ => ret y)
      (emits_timestamp _ (fun f => Logic.I) dir) (fun _ => emits_ret _ _) w1).
    destruct Hem as (t & E & _). exists (t ++ [EGet releases_url]). split.
    - rewrite E, Ht, <- app_assoc. reflexivity.
    - apply in_or_app. right. now left. }
  destruct r as [[[info|]|e]| |n]; [apply Hts|apply Hts|exact H0|exact H0|exact H0].
Qed.

(** ** C59 *)

(** Without force the server is asked when there is no readable time, when the
    configured number of days has passed (forth or back), and always if the period is
    0; it is not asked before.  (The program computes with floating point
    numbers: in the last 10 microseconds of a period it may already ask.) *)
Theorem C59_checks_throttled : forall period dir w w' r t ts,
  w_clock w = t :: ts -> check_for_update period false dir w = (w', r) ->
  ((forall s, ~ last_check (w_disk w) dir s) -> asked w w') /\
  (forall s, last_check (w_disk w) dir s -> (apart t s <= max_int64)%Z ->
     ((0 <= period -> days period <= apart t s -> asked w w') /\
      (apart t s + 10000 <= days period -> nothing_asked w w' /\ r = Ok (Err ErrNoUpdate) /\ w_disk w' = w_disk w))%Z) /\
  ((period <= 0)%Z -> asked w w').
Proof.
  intros period dir w w' r t ts Hclock H. rewrite check_eq, should_check_eq in H.
  unfold start in H. rewrite Hclock in H.
  set (rd := read_file (w_disk w) (check_file dir)) in *.
  set (p := parse_int (trim_space (match rd with Some x => x | None => [] end))) in *.
  destruct (rest_clock_same w) as (R1 & R2 & R3).
  assert (Hask : forall q : bool, q = true ->
    (if q then do_check dir (rest_clock w) else (rest_clock w, Ok (Err ErrNoUpdate))) = (w', r) -> asked w w').
  { intros q -> Hx. assert (Ha := do_check_asks dir (rest_clock w)). rewrite Hx in Ha. cbn [fst] in Ha.
    unfold asked in *. rewrite R1 in Ha. exact Ha. }
  assert (Hstat : forall text, rd = Some text -> exists n, stat (w_disk w) (check_file dir) = Some n).
  { intros text Hr. unfold rd, read_file, stat in *. destruct (resolve (w_disk w) (check_file dir)) as [l|]; [|discriminate].
    destruct (fs_get (d_fs (w_disk w)) l) as [n|]; [eauto|discriminate]. }
  split; [|split].
  - intros Hno. refine (Hask _ _ H).
    destruct rd as [text|] eqn:Er; [|rewrite orb_true_r; reflexivity].
    destruct (snd p) eqn:Ep; [|rewrite orb_true_r; reflexivity]. exfalso.
    apply (Hno (fst p)). exists text, (trim_space text). split; [exact Er|]. split; [apply trim_space_trimmed|]. apply parse_int_numeral. fold p.
    destruct p as [a c]. cbn in *. congruence.
  - intros s (text & u & Hr & Hu & Hs) Hap. apply trimmed_eq in Hu. subst u. apply parse_int_numeral in Hs. fold rd in Hr.
    destruct (Hstat _ Hr) as [n Hn].
    assert (Hp : p = (s, true)) by (unfold p; rewrite Hr; exact Hs).
    rewrite Hp, Hr, Hn in H. cbn [fst snd negb orb] in H. rewrite apart_duration in H by exact Hap.
    split.
    + intros Hnn Hle. refine (Hask _ _ H). apply Z.leb_le.
      apply days_lower; [exact Hap|exact Hnn|exact Hle].
    + intros Hle. replace (period <=? days_int (t - s * 1000000000))%Z with false in H.
      * assert (Hw : w' = rest_clock w /\ r = Ok (Err ErrNoUpdate)) by (split; congruence). destruct Hw as [-> ->].
        split; [|split; [reflexivity|exact R2]]. exists []. split; [exact R1|]. intros u [].
      * symmetry. apply Z.leb_gt. apply days_upper; [exact Hap|exact Hle].
  - intros Hp0. refine (Hask _ _ H).
    assert (Hd : (0 <= days_int (duration (t - fst p * 1000000000)))%Z).
    { destruct (Z.leb_spec (Z.abs (duration (t - fst p * 1000000000))) max_int64) as [Hle|Hgt].
      - apply days_lower; [exact Hle|lia|lia].
      - assert (Hm : duration (t - fst p * 1000000000) = min_int64) by (unfold duration, min_int64, max_int64 in *; lia).
        rewrite Hm. vm_compute. discriminate. }
    replace (period <=? days_int (duration (t - fst p * 1000000000)))%Z with true by lia. apply orb_true_r.
Qed.
Print Assumptions C59_checks_throttled.

Definition check_world (text : bytes) (net : list net_reply) (clock : list Z) : world :=
  MkWorld (MkDisk [([b "c"], NDir); ([b "lastcheck"; b "c"], NFile text 420)] [] (fun _ => false)) 18 None [] net clock [] [] [].

(** Checked on 2022-01-01 12:00:00 UTC, now it is just under and just over one day later. *)
Example C59_example : last_check (w_disk (check_world (b "1641038400") [] [])) (b "/c") 1641038400 /\
  (apart 1641124799999989999 1641038400 + 10000 <= days 1)%Z /\ (days 1 <= apart 1641124800000000000 1641038400)%Z /\
  (apart 1641124800000000000 1641038400 <= max_int64)%Z.
Proof.
  split; [|vm_compute; repeat split; discriminate].
  exists (b "1641038400"), (trim_space (b "1641038400")). split; [vm_compute; reflexivity|]. split; [apply trim_space_trimmed|]. apply parse_int_numeral. vm_compute. reflexivity.
Qed.

(** With force it is always asked. *)
Theorem C59_forced_check_asks : forall period dir w w' r,
  check_for_update period true dir w = (w', r) -> asked w w'.
Proof. intros period dir w w' r H. rewrite check_eq in H. assert (Ha := do_check_asks dir w). rewrite H in Ha. exact Ha. Qed.
Print Assumptions C59_forced_check_asks.

(** ** C60 *)

(** Nothing is written unless the server was asked and gave an answer that was understood. *)
Lemma not_recorded : forall period force dir w w' r,
  check_for_update period force dir w = (w', r) ->
  nothing_asked w w' \/ (forall v, snd (fetch_info (if force then w else rest_clock w)) <> Ok (Val v)) ->
  w_disk w' = w_disk w.
Proof.
  intros period force dir w w' r H Hno. rewrite check_eq in H.
  destruct (rest_clock_same w) as (R1 & R2 & R3).
  assert (G : forall w1, w_trace w1 = w_trace w -> w_disk w1 = w_disk w -> do_check dir w1 = (w', r) ->
    (forall v, snd (fetch_info w1) <> Ok (Val v)) \/ nothing_asked w w' -> w_disk w' = w_disk w).
  { intros w1 Ht Hd Hc [Hv|Hn].
    - unfold do_check, bind at 1 in Hc. destruct (fetch_asks w1) as (_ & Hd1 & _).
      destruct (fetch_info w1) as [w2 [[v|e]| |n]]; cbn [fst snd] in *; [now elim (Hv v)|..]; unfold ret in Hc; congruence.
    - exfalso. apply not_asked in Hn. apply Hn. assert (Ha := do_check_asks dir w1). rewrite Hc in Ha. cbn [fst] in Ha.
      unfold asked in *. rewrite Ht in Ha. exact Ha. }
  destruct force.
  - apply (G w eq_refl eq_refl H). tauto.
  - rewrite should_check_eq in H. set (bb := orb _ _) in H. destruct bb.
    + apply (G (rest_clock w) R1 R2 H). tauto.
    + assert (w' = rest_clock w) by congruence. subst w'. exact R2.
Qed.

(** If it answered, the time of the answer is recorded (when the directory is there, the
    file can be written and read and the disk does not fail)... *)
Lemma recorded : forall period force dir w w' r L t v,
  check_for_update period force dir w = (w', r) ->
  w_faults w = [] -> resolve (w_disk w) dir = Some L -> is_dir (w_fs w) L = true ->
  is_dir (w_fs w) (b "lastcheck" :: L) = false -> d_unreadable (w_disk w) (b "lastcheck" :: L) = false ->
  asked w w' -> snd (fetch_info (if force then w else rest_clock w)) = Ok (Val v) ->
  nth_error (w_clock w) (if force then 0 else 1) = Some t ->
  (- 9000000000000000000 < t < 9000000000000000000)%Z ->
  last_check (w_disk w') dir (t / 1000000000).
Proof.
  intros period force dir w w' r L t v H Hf Hd Hdir Hnd Hu Hasked Hans Hclock Htb. rewrite check_eq in H.
  assert (Hpl : plain_name (b "lastcheck")).
  { split; [repeat split; discriminate|]. intros X. vm_compute in X. intuition discriminate. }
  assert (G : forall w1, w_disk w1 = w_disk w -> w_faults w1 = [] -> snd (fetch_info w1) = Ok (Val v) ->
    nth_error (w_clock w1) 0 = Some t -> do_check dir w1 = (w', r) -> last_check (w_disk w') dir (t / 1000000000)).
  { intros w1 Hw1 Hf1 Hv Hc1 Hc. unfold do_check, bind at 1 in Hc.
    destruct (fetch_asks w1) as (_ & Hd1 & Hf2 & Hcl). destruct (fetch_info w1) as [w2 x]. cbn [fst snd] in *. subst x.
    assert (Hts : exists y, (check_timestamp dir ;;; ret y)%st w2 = (w', r)) by (destruct v; eauto). clear Hc.
    destruct Hts as (y & Hts). unfold bind at 1, check_timestamp, bind at 1, now in Hts. rewrite Hcl in Hts.
    destruct (w_clock w1) as [|t' ts']; [discriminate|]. assert (t' = t) by (cbn in Hc1; congruence). subst t'.
    set (w3 := set_clock ts' w2) in *. assert (Hd3 : w_disk w3 = w_disk w) by (change (w_disk w3) with (w_disk w2); congruence).
    unfold bind at 1, io_stat in Hts. rewrite Hd3 in Hts. unfold stat in Hts. rewrite Hd in Hts.
    unfold is_dir, w_fs in Hdir. destruct (fs_get (d_fs (w_disk w)) L) as [nd|] eqn:EL; [|discriminate].
    unfold bind in Hts. cbn [ret] in Hts. change last_check_file with (b "lastcheck") in Hts. fold (check_file dir) in Hts.
    assert (Hrn := resolve_new_join (w_disk w) dir L (b "lastcheck") Hd ltac:(unfold is_dir; rewrite EL; destruct nd; [discriminate|reflexivity]) Hpl).
    fold (check_file dir) in Hrn.
    destruct (write_file_fine (check_file dir) (itoa (t / 1000000000)) 420 w3 (b "lastcheck" :: L)
      ltac:(change (w_faults w3) with (w_faults w2); congruence) ltac:(rewrite Hd3; exact Hrn)
      ltac:(unfold w_fs; rewrite Hd3; exact Hnd)) as (w4 & Hw & _).
    rewrite Hw in Hts. unfold ret in Hts. assert (w4 = w') by congruence. subst w4.
    apply write_file_ok in Hw. exists (itoa (t / 1000000000)), (trim_space (itoa (t / 1000000000))).
    split; [apply (saved_readable _ _ _ _ _ Hw); rewrite Hd3, <- (resolve_new_place _ _ _ Hrn); exact Hu|].
    split; [apply trim_space_trimmed|]. apply parse_int_numeral. rewrite itoa_trim. apply parse_int_itoa.
    unfold min_int64, max_int64. split; [apply Z.div_le_lower_bound|apply Z.div_le_upper_bound]; lia. }
  destruct force; cbn [nth_error] in Hclock.
  - now apply (G w).
  - rewrite should_check_eq in H. destruct (rest_clock_same w) as (R1 & R2 & R3). set (bb := orb _ _) in H. destruct bb.
    + apply (G (rest_clock w)); try assumption.
      * unfold rest_clock. destruct (w_clock w); exact Hf.
      * unfold rest_clock. destruct (w_clock w) as [|c l]; [discriminate|]. destruct l; [discriminate|]. exact Hclock.
    + exfalso. assert (Hw : w' = rest_clock w) by congruence. subst w'.
      apply (not_asked w (rest_clock w)); [|exact Hasked]. exists []. split; [exact R1|intros u []].
Qed.

(** ... so that a later check within the period does not ask again. *)
Theorem C60_no_second_request : forall period dir w t s w' r ts,
  last_check (w_disk w) dir (s / 1000000000) -> w_clock w = t :: ts ->
  (0 <= t - s)%Z -> (t - s + 1000010000 <= days period)%Z -> (days period <= max_int64)%Z ->
  check_for_update period false dir w = (w', r) ->
  nothing_asked w w' /\ r = Ok (Err ErrNoUpdate) /\ w_disk w' = w_disk w.
Proof.
  intros period dir w t s w' r ts Hl Hc H1 H2 H3 H.
  destruct (C59_checks_throttled _ _ _ _ _ _ _ Hc H) as (_ & H0 & _).
  assert (Hd := Z.div_mod s 1000000000 ltac:(lia)). assert (Hm := Z.mod_pos_bound s 1000000000 ltac:(lia)).
  apply (H0 _ Hl); unfold apart; lia.
Qed.
Print Assumptions C60_no_second_request.

Example C60_example :
  let w := MkWorld (MkDisk [([b "c"], NDir)] [] (fun _ => false)) 18 None []
    [NetBody (b "null") true] [0; 1641124799123456789]%Z [] [] [] in
  asked w (fst (check_for_update 1 false (b "/c") w)) /\
  read_file (w_disk (fst (check_for_update 1 false (b "/c") w))) (check_file (b "/c")) = Some (b "1641124799").
Proof.
  cbn zeta. split.
  - exists (w_trace (fst (check_for_update 1 false (b "/c") (MkWorld (MkDisk [([b "c"], NDir)] [] (fun _ => false)) 18 None []
      [NetBody (b "null") true] [0; 1641124799123456789]%Z [] [] [])))). split; [symmetry; apply app_nil_r|]. vm_compute. tauto.
  - vm_compute. reflexivity.
Qed.

(** ** C77 *)

Lemma part_contains sub s : part_of sub s <-> contains s sub = true.
Proof. unfold part_of. symmetry. apply contains_spec. Qed.

Lemma asset_urls_from l : forall a c a' c', asset_urls l a c = Ok (a', c') ->
  (a' = a \/ exists j, In j l /\ is_archive j a') /\ (c' = c \/ exists j, In j l /\ is_checksum j c').
Proof.
  induction l as [|j l IH]; intros a c a' c' H; cbn [asset_urls] in H; [split; left; congruence|].
  destruct j as [| | | | |m]; cbn [as_obj rbind] in H; try discriminate.
  unfold jget in H. destruct (mget (b "name") m) as [[| | |name| |]|] eqn:En; cbn [as_str rbind] in H; try discriminate.
  assert (Hw : forall a0 c0, asset_urls l a0 c0 = Ok (a', c') ->
    (a' = a0 \/ exists j, In j (JObj m :: l) /\ is_archive j a') /\ (c' = c0 \/ exists j, In j (JObj m :: l) /\ is_checksum j c')).
  { intros a0 c0 H0. destruct (IH _ _ _ _ H0) as [A B]. split.
    - destruct A as [A|(j & A1 & A2)]; [now left|right]. exists j. split; [now right|exact A2].
    - destruct B as [B|(j & A1 & A2)]; [now left|right]. exists j. split; [now right|exact A2]. }
  destruct (contains name (b ".tar.gz")) eqn:E1.
  - destruct (mget (b "browser_download_url") m) as [[| | |u| |]|] eqn:Eu; cbn [as_str rbind] in H; try discriminate.
    destruct (Hw _ _ H) as [[->|X] Y]; split; auto. right. exists (JObj m). split; [now left|].
    exists name. split; [exists m; auto|]. now apply part_contains.
  - destruct (contains name (b ".md5")) eqn:E2.
    + destruct (mget (b "browser_download_url") m) as [[| | |u| |]|] eqn:Eu; cbn [as_str rbind] in H; try discriminate.
      destruct (Hw _ _ H) as [X [->|Y]]; split; auto. right. exists (JObj m). split; [now left|].
      exists name. split; [exists m; auto|]. split; [now apply part_contains|]. intros P. apply part_contains in P. congruence.
    + now apply Hw.
Qed.

Lemma asset_urls_last l : forall a c a' c', asset_urls l a c = Ok (a', c') ->
  (forall pre j post u, l = pre ++ j :: post -> is_archive j u -> (forall k v, In k post -> ~ is_archive k v) -> a' = u) /\
  (forall pre j post u, l = pre ++ j :: post -> is_checksum j u -> (forall k v, In k post -> ~ is_checksum k v) -> c' = u).
Proof.
  induction l as [|j l IH]; intros a c a' c' H.
  { split; intros pre j post u Hl; destruct pre; discriminate. }
  assert (Hnext : exists a1 c1, asset_urls l a1 c1 = Ok (a', c') /\
    (forall u, is_archive j u -> a1 = u) /\ (forall u, is_checksum j u -> c1 = u)).
  { cbn [asset_urls] in H. destruct j as [| | | | |m]; cbn [as_obj rbind] in H; try discriminate.
    unfold jget in H. destruct (mget (b "name") m) as [[| | |name| |]|] eqn:En; cbn [as_str rbind] in H; try discriminate.
    assert (Hn : forall x u, asset (JObj m) x u -> x = name /\ mget (b "browser_download_url") m = Some (JStr u)).
    { intros x u (m' & [= <-] & H1 & H2). split; [congruence|exact H2]. }
    destruct (contains name (b ".tar.gz")) eqn:E1.
    - destruct (mget (b "browser_download_url") m) as [[| | |u| |]|] eqn:Eu; cbn [as_str rbind] in H; try discriminate.
      exists u, c. split; [exact H|]. split.
      + intros u' (x & Hx & _). apply Hn in Hx. destruct Hx. congruence.
      + intros u' (x & Hx & _ & Hp). apply Hn in Hx. destruct Hx as [-> _]. apply part_contains in E1. contradiction.
    - assert (E1' : ~ part_of (b ".tar.gz") name) by (intros P; apply part_contains in P; congruence).
      destruct (contains name (b ".md5")) eqn:E2.
      + destruct (mget (b "browser_download_url") m) as [[| | |u| |]|] eqn:Eu; cbn [as_str rbind] in H; try discriminate.
        exists a, u. split; [exact H|]. split.
        * intros u' (x & Hx & Hp). apply Hn in Hx. destruct Hx as [-> _]. contradiction.
        * intros u' (x & Hx & _). apply Hn in Hx. destruct Hx. congruence.
      + exists a, c. split; [exact H|]. split; intros u' (x & Hx & Hp); apply Hn in Hx; destruct Hx as [-> _]; [contradiction|].
        destruct Hp as [Hp _]. apply part_contains in Hp. congruence. }
  destruct Hnext as (a1 & c1 & H' & Ha1 & Hc1). destruct (IH _ _ _ _ H') as [I1 I2].
  destruct (asset_urls_from _ _ _ _ _ H') as [F1 F2].
  split; intros pre x post u Hl Hx Hpost; (destruct pre as [|y pre]; cbn in Hl; injection Hl as <- Hl; [|eauto]); subst l.
  - destruct F1 as [->|(k & Hk & Hk')]; [now apply Ha1|]. elim (Hpost _ _ Hk Hk').
  - destruct F2 as [->|(k & Hk & Hk')]; [now apply Hc1|]. elim (Hpost _ _ Hk Hk').
Qed.

(** The downloads come from the release: the archive from its last asset with ".tar.gz"
    in the name, the checksum from its last other asset with ".md5" in the name. Without such an
    asset the URL is empty. *)
Lemma downloads_of_release : forall body m rest assets info,
  unmarshal body = (Some (JArr (JObj m :: rest)), true) -> mget (b "assets") m = Some (JArr assets) ->
  read_releases body = Ok (Val (Some info)) ->
  (forall pre j post u, assets = pre ++ j :: post -> is_archive j u -> (forall k v, In k post -> ~ is_archive k v) ->
     ui_archive info = u) /\
  (forall pre j post u, assets = pre ++ j :: post -> is_checksum j u -> (forall k v, In k post -> ~ is_checksum k v) ->
     ui_checksum info = u) /\
  (ui_archive info = [] \/ exists j, In j assets /\ is_archive j (ui_archive info)) /\
  (ui_checksum info = [] \/ exists j, In j assets /\ is_checksum j (ui_checksum info)) /\
  mget (b "tag_name") m = Some (JStr (ui_version info)) /\ mget (b "body") m = Some (JStr (ui_changelog info)).
Proof.
  intros body m rest assets info Hu Ha H. unfold read_releases in H. rewrite Hu in H. cbn [as_obj rbind] in H.
  unfold jget in H. rewrite Ha in H.
  destruct (mget (b "body") m) as [[| | |cl| |]|]; cbn [as_str rbind] in H; try discriminate.
  destruct (mget (b "tag_name") m) as [[| | |v| |]|]; cbn [as_str as_arr rbind] in H; try discriminate.
  destruct (asset_urls assets [] []) as [[a' c']| |] eqn:E; cbn [rbind fst snd] in H; try discriminate.
  assert (Hi : info = MkInfo a' cl c' (version_number app_version <? version_number v)%Z v) by congruence. rewrite Hi.
  cbn [ui_archive ui_checksum ui_version ui_changelog].
  destruct (asset_urls_last _ _ _ _ _ E) as [L1 L2]. destruct (asset_urls_from _ _ _ _ _ E) as [F1 F2]. auto 10.
Qed.

Definition demo_assets : bytes :=
  b "[{""tag_name"":""1.4.0"",""body"":""n"",""assets"":[{""name"":""a.tar.gz"",""browser_download_url"":""u:a""},{""name"":""x.md5"",""browser_download_url"":""u:c""},{""name"":""doc""}]}]".
Example C77_example : exists m assets info, unmarshal demo_assets = (Some (JArr [JObj m]), true) /\
  mget (b "assets") m = Some (JArr assets) /\ length assets = 3 /\
  read_releases demo_assets = Ok (Val (Some info)) /\ ui_archive info = b "u:a" /\ ui_checksum info = b "u:c" /\
  (exists j, In j assets /\ is_archive j (b "u:a")).
Proof.
  eexists. eexists. eexists. split; [vm_compute; reflexivity|]. split; [vm_compute; reflexivity|].
  split; [reflexivity|]. split; [vm_compute; reflexivity|]. split; [reflexivity|]. split; [reflexivity|].
  eexists. split; [now left|]. exists (b "a.tar.gz"). split.
  - eexists. split; [reflexivity|]. split; vm_compute; reflexivity.
  - exists (b "a"), []. reflexivity.
Qed.
