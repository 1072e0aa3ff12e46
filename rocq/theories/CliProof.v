(** Lemmas about processes. *)
From Verif Require Import Base Utf8 GoStrings Json Civil Crypto Path Fs FsProof Domain Repos Session
  World WorldProof Config Updater Cli.
Open Scope st_scope.

Lemma quiet_check_timestamp dir : quiet (check_timestamp dir).
Proof. unfold check_timestamp. quiet. Qed.

Lemma quiet_should_check p dir : quiet (should_check p dir).
Proof. unfold should_check. quiet. Qed.

Lemma quiet_fetch_info : quiet fetch_info.
Proof. unfold fetch_info. quiet. Qed.

Lemma quiet_check p f dir : quiet (check_for_update p f dir).
Proof.
  unfold check_for_update. apply quiet_bind; [destruct f; [quiet|apply quiet_should_check]|].
  intros [|]; [|quiet]. cbn [negb]. apply quiet_bind; [apply quiet_fetch_info|].
  intros [[info|]|e]; try (apply quiet_bind; [apply quiet_check_timestamp|]); quiet.
Qed.

Lemma quiet_facade_check m f dir : quiet (facade_check m f dir).
Proof. unfold facade_check. apply quiet_bind; [quiet|]. intros c. apply quiet_check. Qed.

(** ** Calls on the objects of a process *)

Lemma on_world_eq {A} (m : io A) a :
  on_world m a = (MkApp (fst (m (a_world a))) (a_conf a) (a_vault a), snd (m (a_world a))).
Proof. unfold on_world. now destruct (m (a_world a)). Qed.

Lemma on_world_ok {A} (m : io A) a a' x :
  on_world m a = (a', Ok x) -> exists w, m (a_world a) = (w, Ok x) /\ a' = MkApp w (a_conf a) (a_vault a).
Proof.
  unfold on_world. destruct (m (a_world a)) as [w r] eqn:E. intros [= <- ->]. exists w. auto.
Qed.

(** Calls that touch neither the settings nor the vault nor the terminal. *)
Definition aside {A} (m : act A) : Prop := forall a,
  a_conf (fst (m a)) = a_conf a /\ a_vault (fst (m a)) = a_vault a /\
  w_stdin (a_world (fst (m a))) = w_stdin (a_world a) /\ w_pass (a_world (fst (m a))) = w_pass (a_world a).

Lemma aside_ret {A} (x : A) : aside (ret x).
Proof. intros a; repeat split. Qed.
Lemma aside_lift {A} (x : res A) : aside (lift x).
Proof. intros a; repeat split. Qed.
Lemma aside_conf : aside the_conf.
Proof. intros a; repeat split. Qed.
Lemma aside_bind {A B} (m : act A) (k : A -> act B) : aside m -> (forall x, aside (k x)) -> aside (bind m k).
Proof.
  intros Hm Hk a. unfold bind. destruct (Hm a) as (H1 & H2 & H3 & H4).
  destruct (m a) as [a1 [x| |n]]; cbn [fst] in *; auto.
  destruct (Hk x a1) as (H5 & H6 & H7 & H8). repeat split; congruence.
Qed.
Lemma aside_world {A} (m : io A) : quiet m -> aside (on_world m).
Proof. intros Hm a. rewrite on_world_eq. cbn. destruct (Hm (a_world a)). auto. Qed.
Lemma aside_say t : aside (say t).
Proof. apply aside_world, quiet_print. Qed.
Lemma aside_config_now : aside config_now.
Proof. apply aside_bind; [apply aside_conf|]. intros m. apply aside_lift. Qed.

Lemma aside_check dir : aside (cli_check dir).
Proof.
  apply aside_bind; [apply aside_config_now|]. intros c. destruct (cfg_notify c); [|apply aside_ret].
  apply aside_bind; [apply aside_conf|]. intros m.
  apply aside_bind; [apply aside_world, quiet_facade_check|].
  intros [info|e]; [apply aside_say|apply aside_ret].
Qed.

Lemma aside_ok {A} (m : act A) a a' x : aside m -> m a = (a', Ok x) ->
  a_conf a' = a_conf a /\ a_vault a' = a_vault a /\
  w_stdin (a_world a') = w_stdin (a_world a) /\ w_pass (a_world a') = w_pass (a_world a).
Proof. intros H E. specialize (H a). now rewrite E in H. Qed.

Lemma scan_ok a a' s :
  on_world scan a = (a', Ok s) ->
  s = fst (scanln (w_stdin (a_world a))) /\ w_stdin (a_world a') = snd (scanln (w_stdin (a_world a))) /\
  a_conf a' = a_conf a /\ a_vault a' = a_vault a.
Proof.
  intros H. apply on_world_ok in H. destruct H as (w & H & ->). unfold scan in H.
  destruct (scanln (w_stdin (a_world a))) as [t r]. injection H as <- <-. auto.
Qed.

Lemma config_now_ok a a' c : config_now a = (a', Ok c) -> a' = a /\ get_config (a_conf a) = Ok c.
Proof.
  intros H. apply bind_ok in H. destruct H as (a1 & m & H1 & H2). unfold the_conf in H1. injection H1 as <- <-.
  unfold lift in H2. injection H2 as <- H2. auto.
Qed.

(** What the dialogue makes of the answers. *)
Definition dialogue (U : unicode) (c : config) (input : list rune) : config :=
  let '(confirm, r1) := scanln input in
  let '(vault, r2) :=
    match lv_from_name U confirm with
    | Val v => if lv_value v then (trim_space (fst (scanln r1)), snd (scanln r1)) else (cfg_vault c, r1)
    | Err _ => (cfg_vault c, r1)
    end in
  let '(ns, r3) := scanln r2 in
  let '(ts, r4) := scanln r3 in
  let '(ps, r5) := scanln r4 in
  MkConfig
    (let (z, fine) := parse_int ts in if fine && (1 <=? z)%Z && (z <=? 30)%Z then z else cfg_timeout c)
    (match lv_from_name U ns with Val v => lv_value v | Err _ => cfg_notify c end)
    (let (z, fine) := parse_int ps in if fine && (0 <=? z)%Z && (z <=? 365)%Z then z else cfg_period c)
    vault.

Lemma save_now_ok Y dir c a a' :
  save_now Y dir c a = (a', Ok tt) ->
  exists w m, save_config Y dir c (a_conf a) (a_world a) = (w, Ok m) /\ a' = MkApp w m (a_vault a).
Proof.
  unfold save_now. destruct (save_config Y dir c (a_conf a) (a_world a)) as [w [m| |n]] eqn:E; try discriminate.
  intros [= <-]. exists w, m. auto.
Qed.

Ltac aside_step H a1 :=
  let Hx := fresh "Hx" in
  apply bind_ok in H; destruct H as (a1 & ? & Hx & H);
  apply aside_ok in Hx; [|first [apply aside_say|apply aside_check|apply aside_lift|apply aside_ret
                          |apply aside_world; apply quiet_print|apply aside_conf]];
  destruct Hx as (? & ? & ? & ?).

Lemma configure_ok U Y dir a a' :
  configure U Y dir a = (a', Ok tt) ->
  exists c a1 w m, get_config (a_conf a) = Ok c /\ a_conf a1 = a_conf a /\ a_vault a1 = a_vault a /\
    save_config Y dir (dialogue U c (w_stdin (a_world a))) (a_conf a) (a_world a1) = (w, Ok m) /\
    a_conf a' = m /\ w_disk (a_world a') = w_disk w /\ a_vault a' = a_vault a.
Proof.
  unfold configure. intros H.
  aside_step H a1. apply bind_ok in H. destruct H as (a2 & c & Hc & H). apply config_now_ok in Hc.
  destruct Hc as [-> Hc]. rename H0 into K1.
  aside_step H a3. aside_step H a4. aside_step H a5.
  apply bind_ok in H. destruct H as (a6 & confirm & Hs & H). apply scan_ok in Hs.
  destruct Hs as (E1 & S1 & ? & ?).
  apply bind_ok in H. destruct H as (a7 & vault & Hv & H).
  assert (V : a_conf a7 = a_conf a6 /\ a_vault a7 = a_vault a6 /\
    (vault, w_stdin (a_world a7)) =
    match lv_from_name U confirm with
    | Val v => if lv_value v then (trim_space (fst (scanln (w_stdin (a_world a6)))), snd (scanln (w_stdin (a_world a6))))
               else (cfg_vault c, w_stdin (a_world a6))
    | Err _ => (cfg_vault c, w_stdin (a_world a6))
    end).
  { destruct (lv_from_name U confirm) as [v|e]; [|unfold ret in Hv; injection Hv as <- <-; auto].
    destruct (lv_value v); [|unfold ret in Hv; injection Hv as <- <-; auto].
    aside_step Hv a8. apply bind_ok in Hv. destruct Hv as (a9 & s & Hs & Hv). apply scan_ok in Hs.
    destruct Hs as (-> & S2 & ? & ?). unfold ret in Hv. injection Hv as <- <-.
    repeat split; try congruence. }
  destruct V as (V1 & V2 & V3).
  aside_step H a8. aside_step H a9.
  apply bind_ok in H. destruct H as (a10 & ns & Hs & H). apply scan_ok in Hs. destruct Hs as (E2 & S2 & ? & ?).
  aside_step H a11.
  apply bind_ok in H. destruct H as (a12 & ts & Hs & H). apply scan_ok in Hs. destruct Hs as (E3 & S3 & ? & ?).
  aside_step H a13.
  apply bind_ok in H. destruct H as (a14 & ps & Hs & H). apply scan_ok in Hs. destruct Hs as (E4 & S4 & ? & ?).
  apply bind_ok in H. destruct H as (a15 & [] & Hs & H). apply save_now_ok in Hs.
  destruct Hs as (w & m & Hs & ->).
  assert (Hc14 : a_conf a14 = a_conf a) by congruence.
  assert (Hd : dialogue U c (w_stdin (a_world a)) =
    MkConfig (let (z, fine) := parse_int ts in if fine && (1 <=? z)%Z && (z <=? 30)%Z then z else cfg_timeout c)
      (match lv_from_name U ns with Val v => lv_value v | Err _ => cfg_notify c end)
      (let (z, fine) := parse_int ps in if fine && (0 <=? z)%Z && (z <=? 365)%Z then z else cfg_period c) vault).
  { unfold dialogue.
    assert (X1 : scanln (w_stdin (a_world a)) = (confirm, w_stdin (a_world a6))).
    { rewrite E1, S1. replace (w_stdin (a_world a5)) with (w_stdin (a_world a)) by congruence. apply surjective_pairing. }
    rewrite X1, <- V3.
    assert (X2 : scanln (w_stdin (a_world a7)) = (ns, w_stdin (a_world a10))).
    { rewrite E2, S2. replace (w_stdin (a_world a9)) with (w_stdin (a_world a7)) by congruence. apply surjective_pairing. }
    rewrite X2.
    assert (X3 : scanln (w_stdin (a_world a10)) = (ts, w_stdin (a_world a12))).
    { rewrite E3, S3. replace (w_stdin (a_world a11)) with (w_stdin (a_world a10)) by congruence. apply surjective_pairing. }
    rewrite X3.
    assert (X4 : scanln (w_stdin (a_world a12)) = (ps, w_stdin (a_world a14))).
    { rewrite E4, S4. replace (w_stdin (a_world a13)) with (w_stdin (a_world a12)) by congruence. apply surjective_pairing. }
    now rewrite X4. }
  rewrite <- Hd, Hc14 in Hs.
  unfold say, on_world, println, print in H. cbn in H. inversion H as [Ha]. clear H.
  exists c, a14, w, m.
  split; [congruence|]. split; [exact Hc14|]. split; [congruence|]. split; [exact Hs|].
  cbn. repeat split. congruence.
Qed.
