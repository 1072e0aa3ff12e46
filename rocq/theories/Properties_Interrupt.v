(** A check for updates that is interrupted (C99). *)
From Verif Require Import Base Spec_Trim Spec_Numeral GoStrings GoStringsProof FieldsProof Path Fs FsProof Domain World WorldProof Config Updater UpdateProof.
From Verif Require Import Properties_Update Properties_Check.

(** ** Specification *)

(** Seconds of a clock that counts nanoseconds. *)
Definition whole_seconds (t : Z) : Z := (t / 1000000000)%Z.

(** From September 2001 (a billion seconds) on. *)
Definition modern (t : Z) : Prop := (1000000000000000000 <= t <= max_int64)%Z.

(** The machine after it lost power when its files were [f]. *)
Definition after_crash (w : world) (f : fs) (w2 : world) : Prop :=
  w_disk w2 = MkDisk f (d_cwd (w_disk w)) (d_unreadable (w_disk w)).

(** ** Lemmas *)

Lemma dec_prefix : forall k n i, N.size_nat n <= k -> i < length (dec_of_N n) -> i <> 0 ->
  exists m, firstn i (dec_of_N n) = dec_of_N m /\ (m <= n / 10)%N.
Proof.
  induction k as [|k IH]; intros n i Hk Hi Hz.
  - assert (n = 0)%N by (destruct n as [|[]]; cbn in Hk; lia). subst n. cbn in Hi. lia.
  - destruct (N.ltb_spec n 10) as [Hn|Hn]; [rewrite dec_of_N_small in Hi by exact Hn; cbn in Hi; lia|].
    rewrite (dec_of_N_step n Hn) in *. rewrite app_length in Hi. cbn [length] in Hi.
    rewrite firstn_app. replace (i - length (dec_of_N (n / 10))) with 0 by lia. cbn [firstn]. rewrite app_nil_r.
    destruct (Nat.eq_dec i (length (dec_of_N (n / 10)))) as [->|Hne]; [exists (n / 10)%N; split; [apply firstn_all|lia]|].
    destruct (IH (n / 10)%N i) as (m & Hm & Hle); [assert (X := size_nat_div10 n Hn); lia|lia|exact Hz|].
    exists m. split; [exact Hm|]. assert (Q : forall x, (x / 10 <= x)%N) by (intros x; apply N.div_le_upper_bound; lia). specialize (Q (n / 10)%N). lia.
Qed.

Lemma dec_numeral n z : numeral (dec_of_N n) z -> z = Z.of_N n.
Proof.
  intros (ds & m & Hm & H). apply digits_model in Hm. destruct Hm as (Hn & Hd & Hv). assert (Hv0 := dec_val_of_N n). assert (Hp := dec_of_N_digits n).
  destruct H as [[[E|E] ->]|[E ->]].
  - rewrite E in Hv0. unfold dec_val in Hv0. congruence.
  - rewrite E in Hp. discriminate Hp.
  - rewrite E in Hp. discriminate Hp.
Qed.

(** Whether there is a time on record can be found out. *)
Lemma last_check_or D dir : (exists s, last_check D dir s) \/ forall s, ~ last_check D dir s.
Proof.
  destruct (read_file D (check_file dir)) as [x|] eqn:Er; [|right; intros s (y & u & Hr & _); congruence].
  destruct (parse_int (trim_space x)) as [z [|]] eqn:Ep.
  - left. exists z, x, (trim_space x). split; [exact Er|]. split; [apply trim_space_trimmed|]. now apply parse_int_numeral.
  - right. intros s (y & u & Hr & Hu & Hn). apply trimmed_eq in Hu. subst u. apply parse_int_numeral in Hn. congruence.
Qed.

Lemma interrupted : forall dir w f, dir <> [] -> ~ In dotdot (split_slash dir) -> moments w = [] ->
  forall t ts, w_clock w = t :: ts -> In f (moments (fst (check_timestamp dir w))) ->
  let file := place (d_cwd (w_disk w)) (check_file dir) in
  fs_get f file = fs_get (w_fs w) file \/ exists n mode, fs_get f file = Some (NFile (firstn n (itoa (whole_seconds t))) mode).
Proof.
  intros dir w f Hne Hdd Ht t ts Hclock Hin file. set (s := itoa (whole_seconds t)) in *.
  set (I := fun f => fs_get f file = fs_get (w_fs w) file \/ exists n mode, fs_get f file = Some (NFile (firstn n s) mode)).
  assert (Hfile : file = b "lastcheck" :: place (d_cwd (w_disk w)) dir).
  { unfold file, check_file. rewrite place_join by exact Hne.
    rewrite split_slash_plain by (intros H; vm_compute in H; intuition discriminate).
    apply lexical_normal. repeat split; discriminate. }
  assert (HJ : since (w_trace w) (env w) I (set_clock ts w)).
  { apply (since_start (env w) I (set_clock ts w)); [reflexivity|]. left. reflexivity. }
  assert (HD : forall k f, k <> file -> I f -> I (fs_set k NDir f)).
  { intros k g Hk G. unfold I. rewrite fs_get_set_other by congruence. exact G. }
  assert (HW : forall f m0 n', I (fs_set file (NFile (firstn n' s) m0) f)).
  { intros g m0 n'. right. exists n', m0. apply fs_get_set_same. rewrite Hfile. discriminate. }
  assert (HM : since (w_trace w) (env w) I (fst (match stat (w_disk w) dir with None => mkdir_all dir | Some _ => ret true end (set_clock ts w)))).
  { destruct (stat (w_disk w) dir); [exact HJ|]. unfold mkdir_all. destruct dir as [|d0 d1]; [congruence|].
    set (dir := d0 :: d1) in *. change (w_fs (set_clock ts w)) with (w_fs w). change (w_disk (set_clock ts w)) with (w_disk w).
    destruct (missing_dirs (w_fs w) _ (split_slash dir)) as [ls|] eqn:Em; [|exact HJ].
    apply keeps_make_dirs; [|exact HJ]. intros k g Hk HI _. apply HD; [|exact HI].
    assert (Hmi := missing_in _ _ _ _ _ Em Hk). destruct Hmi as (xs & ys & Hx & ->).
    intros Heq. assert (Hb := lexical_prefix xs (if rooted dir then [] else d_cwd (w_disk w)) ys).
    rewrite <- Hx in Hb. specialize (Hb Hdd). apply below_length in Hb.
    rewrite Heq, Hfile in Hb. unfold place in Hb. cbn [length] in Hb. lia. }
  assert (HF : since (w_trace w) (env w) I (fst (check_timestamp dir w))).
  { unfold check_timestamp, bind, now, io_stat. rewrite Hclock. change (w_disk (set_clock ts w)) with (w_disk w).
    destruct (match stat (w_disk w) dir with None => mkdir_all dir | Some _ => ret true end (set_clock ts w)) as [w1 r1] eqn:E1.
    cbn [fst] in HM. destruct r1 as [ok| |n]; [|exact HM|exact HM].
    fold (whole_seconds t). fold s. change last_check_file with (b "lastcheck"). fold (check_file dir).
    assert (HJ2 : since (w_trace w) (env w) I (fst (write_file (check_file dir) s 420 w1))).
    { destruct (resolve_new (w_disk w1) (check_file dir)) as [l|] eqn:Er.
      - assert (l = file).
        { apply resolve_new_place in Er. rewrite Er. destruct HM as (He & _ & _). unfold env in He.
          assert (Hc : d_cwd (w_disk w1) = d_cwd (w_disk w)) by congruence. rewrite Hc. reflexivity. }
        subst l. apply (always_rewrite (w_trace w) (env w) I _ s 420 file w1 HM Er).
        + intros g m0 n n' _ _. apply HW.
        + intros g m0 _ _. apply (HW g m0 0).
      - unfold write_file, bind, open_trunc. rewrite Er. exact HM. }
    destruct (write_file (check_file dir) s 420 w1) as [w2 [[|]| |n]]; exact HJ2. }
  destruct HF as (_ & _ & t0 & Et & HF). unfold moments in Hin, Ht. rewrite Et, flat_map_app, Ht, app_nil_r in Hin.
  rewrite Forall_forall in HF. exact (HF f Hin).
Qed.

(** ** C99 *)

(** The program is stopped at any moment of a check.  Then the file with the time of the last check is as it was, or
    holds the time of this check, or the next check, unless it is made with a clock that was set back, asks the server:
    what is left of the file never keeps a check from being made. *)
Theorem C99_interrupted_check : forall period force dir w t1 t2 ts f w2 t ts2 period2 w2' r2,
  dir <> [] -> ~ In dotdot (split_slash dir) -> w_trace w = [] -> w_clock w = t1 :: t2 :: ts -> modern t1 -> modern t2 ->
  In f (moments (fst (check_for_update period force dir w))) ->
  after_crash w f w2 -> w_clock w2 = t :: ts2 -> (t1 <= t <= max_int64)%Z -> (t2 <= t)%Z -> (0 <= period2 <= 365)%Z ->
  check_for_update period2 false dir w2 = (w2', r2) ->
  let file := place (d_cwd (w_disk w)) (check_file dir) in
  fs_get f file = fs_get (w_fs w) file \/
  (exists s, last_check (w_disk w2) dir s /\ (s = whole_seconds t1 \/ s = whole_seconds t2)) \/
  asked w2 w2'.
Proof.
  intros period force dir w t1 t2 ts f w2 t ts2 period2 w2' r2 Hne Hdd Ht Hclock M1 M2 Hin Hd Hc2 Ht1 Ht2 Hper H2 file.
  assert (Hts : exists w1 tt tl, moments w1 = [] /\ w_disk w1 = w_disk w /\ w_clock w1 = tt :: tl /\ (tt = t1 \/ tt = t2) /\
    In f (moments (fst (check_timestamp dir w1)))).
  { assert (G : forall w0 tt tl, w_trace w0 = [] -> w_disk w0 = w_disk w -> w_clock w0 = tt :: tl -> (tt = t1 \/ tt = t2) ->
      In f (moments (fst (do_check dir w0))) -> exists w1 tt tl, moments w1 = [] /\ w_disk w1 = w_disk w /\ w_clock w1 = tt :: tl /\ (tt = t1 \/ tt = t2) /\
        In f (moments (fst (check_timestamp dir w1)))).
    { intros w0 tt tl T0 D0 C0 Htt X. unfold do_check, bind at 1 in X. destruct (fetch_asks w0) as (F1 & F2 & _ & F4).
      destruct (fetch_info w0) as [w3 r3]. cbn [fst] in F1, F2, F4. rewrite T0 in F1.
      assert (Y : forall y : eres update_info, fst ((check_timestamp dir ;;; ret y)%st w3) = fst (check_timestamp dir w3)).
      { intros y. unfold bind, ret. destruct (check_timestamp dir w3) as [w4 [[]| |n]]; reflexivity. }
      assert (Z0 : moments w3 = []) by (unfold moments; rewrite F1; reflexivity).
      assert (Z1 : In f (moments (fst (check_timestamp dir w3)))).
      { destruct r3 as [[[info|]|e]| |n]; [rewrite Y in X; exact X|rewrite Y in X; exact X|cbn [fst ret] in X; rewrite Z0 in X; destruct X..]. }
      exists w3, tt, tl. split; [exact Z0|]. split; [congruence|]. split; [congruence|]. split; [exact Htt|exact Z1]. }
    rewrite check_eq in Hin. destruct force; [exact (G w t1 (t2 :: ts) Ht eq_refl Hclock (or_introl eq_refl) Hin)|].
    rewrite should_check_eq in Hin. cbn zeta in Hin.
    assert (R : w_trace (rest_clock w) = [] /\ w_disk (rest_clock w) = w_disk w /\ w_clock (rest_clock w) = t2 :: ts).
    { unfold rest_clock. rewrite Hclock. auto. }
    destruct R as (R1 & R2 & R3). destruct (_ || _)%bool.
    - exact (G _ t2 ts R1 R2 R3 (or_intror eq_refl) Hin).
    - cbn [fst] in Hin. unfold moments in Hin. rewrite R1 in Hin. destruct Hin. }
  destruct Hts as (w1 & tt & tl & A1 & A2 & A3 & A4 & A5).
  assert (Htt : modern tt /\ (tt <= t)%Z) by (destruct A4 as [->| ->]; split; assumption || lia).
  destruct (interrupted dir w1 f Hne Hdd A1 tt tl A3 A5) as [X|(n & mode & X)]; [left; unfold w_fs in *; rewrite A2 in X; exact X|right].
  rewrite A2 in X. fold file in X.
  destruct (C59_checks_throttled period2 dir w2 w2' r2 t ts2 Hc2 H2) as (B1 & B2 & _).
  unfold after_crash in Hd. set (text := firstn n (itoa (whole_seconds tt))) in *.
  assert (Hread : forall s, last_check (w_disk w2) dir s -> exists u, trimmed text u /\ numeral u s).
  { intros s (x & u & Hr & Hu & Hn & _). apply read_place in Hr. destruct Hr as (m & _ & Hg). rewrite Hd in Hg. cbn [d_fs d_cwd] in Hg.
    fold file in Hg. rewrite X in Hg. injection Hg as <- _. eauto. }
  assert (Hsec : (1000000000 <= whole_seconds tt)%Z) by (unfold whole_seconds; destruct Htt as ((Hm & _) & _); apply Z.div_le_lower_bound; lia).
  assert (Hsec2 : (whole_seconds tt * 1000000000 <= tt)%Z) by (unfold whole_seconds; assert (Q := Z.mul_div_le tt 1000000000 eq_refl); lia).
  assert (Hdec : itoa (whole_seconds tt) = dec_of_N (Z.to_N (whole_seconds tt))) by (unfold itoa; replace (whole_seconds tt <? 0)%Z with false by lia; reflexivity).
  destruct (le_lt_dec (length (itoa (whole_seconds tt))) n) as [Hn|Hn].
  - (* the whole time was written *)
    assert (Et : text = itoa (whole_seconds tt)) by (apply firstn_all2; exact Hn).
    destruct (last_check_or (w_disk w2) dir) as [(s & Hs)|Hno]; [left|right; exact (B1 Hno)]. exists s. split; [exact Hs|].
    destruct (Hread s Hs) as (u & Hu & Hnum). apply trimmed_eq in Hu. rewrite Et, itoa_trim in Hu. subst u. rewrite Hdec in Hnum.
    apply dec_numeral in Hnum. rewrite Z2N.id in Hnum by lia. destruct A4 as [->| ->]; auto.
  - (* only its beginning *)
    right. destruct (Nat.eq_dec n 0) as [->|Hz].
    + apply B1. intros s Hs. destruct (Hread s Hs) as (u & Hu & ds & m & (Hne' & _) & Hc). apply trimmed_eq in Hu. cbn in Hu. subst u.
      destruct Hc as [[[E|E] _]|[E _]]; [congruence|discriminate E|discriminate E].
    + rewrite Hdec in Hn. destruct (dec_prefix _ (Z.to_N (whole_seconds tt)) n (le_n _) Hn Hz) as (m & Hm & Hle).
      unfold text in Hread. rewrite Hdec, Hm in Hread.
      assert (Hs : forall s, last_check (w_disk w2) dir s -> s = Z.of_N m).
      { intros s Hs. destruct (Hread s Hs) as (u & Hu & Hnum). apply trimmed_eq in Hu.
        assert (E := itoa_trim (Z.of_N m)). unfold itoa in E. replace (Z.of_N m <? 0)%Z with false in E by lia. rewrite N2Z.id in E.
        rewrite E in Hu. subst u. now apply dec_numeral. }
      destruct (last_check_or (w_disk w2) dir) as [(s & Hl)|Hno]; [|exact (B1 Hno)]. assert (Es := Hs s Hl). subst s.
      assert (Hm10 : (Z.of_N m * 10 <= whole_seconds tt)%Z).
      { assert (Q := N.mul_div_le (Z.to_N (whole_seconds tt)) 10). lia. }
      assert (Hap : apart t (Z.of_N m) = (t - Z.of_N m * 1000000000)%Z) by (unfold apart; lia).
      apply (B2 _ Hl); unfold days in *; lia.
Qed.
Print Assumptions C99_interrupted_check.

(** A check a day after the last one, on 2022-01-02; power is lost after three digits were written. *)
Example C99_example :
  let w := check_world (b "1641038400") [NetBody (b "null") true] [1641124800000000000; 1641124800000000001]%Z in
  let f := fs_set [b "lastcheck"; b "c"] (NFile (b "164") 420) (w_fs w) in
  modern 1641124800000000000 /\ modern 1641124800000000001 /\
  length (moments (fst (check_for_update 1 false (b "/c") w))) = 11 /\
  In f (moments (fst (check_for_update 1 false (b "/c") w))) /\
  exists w2, after_crash w f w2 /\ w_clock w2 = [1641124860000000000]%Z /\ last_check (w_disk w2) (b "/c") 164 /\
    asked w2 (fst (check_for_update 365 false (b "/c") w2)).
Proof.
  cbn zeta. split; [unfold modern, max_int64; lia|]. split; [unfold modern, max_int64; lia|]. split; [vm_compute; reflexivity|].
  split; [vm_compute; tauto|].
  eexists (MkWorld (MkDisk _ [] (fun _ => false)) 18 None [] [] [1641124860000000000]%Z [] [] []). split; [reflexivity|]. split; [reflexivity|]. split.
  - exists (b "164"), (trim_space (b "164")). split; [vm_compute; reflexivity|]. split; [apply trim_space_trimmed|]. apply parse_int_numeral. vm_compute. reflexivity.
  - eexists. split; [symmetry; apply app_nil_r|]. vm_compute. tauto.
Qed.
