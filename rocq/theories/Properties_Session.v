(** Properties of a session with the vault (C20-C29): any history of calls of the
    facade in one process, over any disks, with any order of map iteration and any
    sorting that Go allows. *)
From Verif Require Import Base Utf8 GoStrings GoStringsProof Base64 Float64 Json JsonPrint Crypto Spec_Crypto CryptoProof
  Path Fs FsProof Domain DomainProof Spec_Domain KeyService Repos ItemService Spec_Item ItemProof
  Session SessionProof Spec_Vault VaultProof OpenProof Spec_Writer WriterProof Toy Properties_Vault.

(** ** Specification *)

(** No query shows anything of any item. *)
Definition shows_nothing (U : unicode) (s : state) : Prop :=
  (forall cat trashed, count_items cat trashed s = 0) /\
  (forall uid trashed, get_item uid trashed s = None) /\
  (forall O cat t trashed, oracles_ok O -> get_items U O cat t trashed s = []).

(** What the program holds, seen through the lookup by uid. *)
Definition held (s : state) (i : item) : Prop := get_item (it_uid i) (it_trashed i) s = Some i.

(** The order of rows: by category code, then by title, as byte strings. *)
Inductive lex_lt : bytes -> bytes -> Prop :=
| lex_end c y : lex_lt [] (c :: y)
| lex_head c d x y : (vb c < vb d)%N -> lex_lt (c :: x) (d :: y)
| lex_tail c x y : lex_lt x y -> lex_lt (c :: x) (c :: y).

Definition row_before (x y : simple_item) : Prop :=
  lex_lt (cat_code (s_cat x)) (cat_code (s_cat y)) \/
  (cat_code (s_cat x) = cat_code (s_cat y) /\ (lex_lt (s_title x) (s_title y) \/ s_title x = s_title y)).

(** An item answers a query. *)
Definition answers (U : unicode) (cat : option category) (t : bytes) (trashed : bool) (i : item) : Prop :=
  (forall c, cat = Some c -> it_cat i = c) /\ it_trashed i = trashed /\
  exists before after, to_lower U (it_title i) = before ++ to_lower U t ++ after.

(** The row of an item. *)
Definition row_of (i : item) : simple_item := MkSimple (it_cat i) (it_title i) (it_trashed i) (it_uid i).

(** ** Lemmas *)

Lemma locked_shows_nothing U s : st_items s = None -> shows_nothing U s.
Proof.
  intros H. unfold shows_nothing, count_items, get_item, get_items, get_simple_items. rewrite H.
  split; [reflexivity|]. split; [reflexivity|]. intros O cat t tr HO.
  apply Permutation_nil. symmetry. apply (sort_perm O HO).
Qed.

Lemma run_app C U tz h1 : forall h2 s,
  run C U tz (h1 ++ h2) s =
  match run C U tz h1 s with
  | Ok (s1, r1) => match run C U tz h2 s1 with
                   | Ok (s2, r2) => Ok (s2, r1 ++ r2) | Panic => Panic | Exit n => Exit n end
  | Panic => Panic
  | Exit n => Exit n
  end.
Proof.
  induction h1 as [|[[O D] o] h1 IH]; intros h2 s; cbn [app run].
  - destruct (run C U tz h2 s) as [[s2 r2]| |]; reflexivity.
  - destruct (step C U tz O D o s) as [[s1 r1]| |]; cbn [rbind fst snd]; try reflexivity.
    rewrite IH. destruct (run C U tz h1 s1) as [[s2 r2]| |]; cbn [rbind fst snd]; try reflexivity.
    destruct (run C U tz h2 s2) as [[s3 r3]| |]; reflexivity.
Qed.

Lemma run_len C U tz h : forall s s' r, run C U tz h s = Ok (s', r) -> length r = length h.
Proof.
  induction h as [|[[O D] o] h IH]; intros s s' r H; cbn [run] in H.
  - injection H as <- <-. reflexivity.
  - apply rbind_ok in H. destruct H as ([s1 r1] & H1 & H).
    apply rbind_ok in H. destruct H as ([s2 r2] & H2 & H). injection H as <- <-.
    cbn [fst snd length]. f_equal. exact (IH _ _ _ H2).
Qed.

Lemma honest_app h1 h2 : honest (h1 ++ h2) <-> honest h1 /\ honest h2.
Proof. apply Forall_app. Qed.

Lemma reachable_run C U tz h s s' r :
  reachable C U tz s -> honest h -> run C U tz h s = Ok (s', r) -> reachable C U tz s'.
Proof.
  intros (h0 & r0 & Hh & H0) Hh' H. exists (h0 ++ h), (r0 ++ r).
  split; [now apply honest_app|]. now rewrite run_app, H0, H.
Qed.

Lemma held_spec C U tz s : reachable C U tz s ->
  forall i, held s i <-> In i (items_list (st_items s)).
Proof.
  intros Hr i. apply reachable_inv in Hr. unfold held, get_item.
  rewrite find_first_spec by apply (inv_uids _ Hr). tauto.
Qed.

Lemma bytes_ltb_lex x : forall y, bytes_ltb x y = true <-> lex_lt x y.
Proof.
  induction x as [|c x IH]; intros [|d y]; cbn [bytes_ltb].
  - split; [discriminate|intros H; inversion H].
  - split; [constructor|reflexivity].
  - split; [discriminate|intros H; inversion H].
  - destruct (Ascii.eqb_spec c d) as [->|Hn].
    + rewrite IH. split; [now constructor|]. intros H. inversion H as [|? ? ? ? Hl|]; subst; [lia|assumption].
    + rewrite N.ltb_lt. split; [now constructor|]. intros H. inversion H; subst; [assumption|congruence].
Qed.

Lemma row_le_before x y : row_le x y -> row_before x y.
Proof.
  unfold row_le, row_before, simple_lt. rewrite (bytes_eqb_sym (cat_code (s_cat y))).
  destruct (bytes_eqb (cat_code (s_cat x)) (cat_code (s_cat y))) eqn:E; intros H.
  - apply bytes_eqb_eq in E. right. split; [exact E|].
    destruct (bytes_ltb (s_title x) (s_title y)) eqn:L; [left; now apply bytes_ltb_lex|].
    right. now apply bytes_ltb_total.
  - left. apply bytes_ltb_lex. destruct (bytes_ltb (cat_code (s_cat x)) (cat_code (s_cat y))) eqn:L; [reflexivity|].
    apply bytes_eqb_neq in E. exfalso. apply E. now apply bytes_ltb_total.
Qed.

Lemma filter_perm {A} (p : A -> bool) l l' : Permutation l l' -> Permutation (filter p l) (filter p l').
Proof.
  intros H. induction H as [|x l l' H IH|x y l|l l' l'' H1 IH1 H2 IH2]; cbn [filter]; auto.
  - destruct (p x); auto.
  - destruct (p x), (p y); auto. constructor.
  - now transitivity (filter p l').
Qed.

(** ** C20: Lock forgets everything: nothing is shown and neither keys nor items are
    left. *)
Theorem C20_lock_forgets : forall C U tz h O D s r,
  run C U tz (h ++ [(O, D, OpLock)]) init = Ok (s, r) ->
  is_unlocked s = false /\ shows_nothing U s /\ st_keys s = None /\ st_items s = None.
Proof.
  intros C U tz h O D s r H. rewrite run_app in H.
  destruct (run C U tz h init) as [[s1 r1]| |]; try discriminate.
  cbn in H. injection H as <- <-. split; [reflexivity|]. split; [|split; reflexivity].
  now apply locked_shows_nothing.
Qed.
Print Assumptions C20_lock_forgets.

(** Lock never fails, so every history can be ended so. *)
Theorem C20_lock_succeeds : forall C U tz h O D s r,
  run C U tz h init = Ok (s, r) -> exists s', run C U tz (h ++ [(O, D, OpLock)]) init = Ok (s', r ++ [RUnit]).
Proof. intros C U tz h O D s r H. rewrite run_app, H. cbn. eauto. Qed.
Print Assumptions C20_lock_succeeds.

Example C20_example :
  exists s s' r, run toy_crypto latin1 utc (opening backwards demo_disk (b "/v") (b "freddy")) init = Ok (s, r) /\
    count_items None false s = 2 /\
    run toy_crypto latin1 utc
      (opening backwards demo_disk (b "/v") (b "freddy") ++ [(backwards, demo_disk, OpLock)]) init
      = Ok (s', r ++ [RUnit]).
Proof.
  destruct (C16_items_decoded toy_crypto latin1 toy_crypto_ok latin1_ok utc backwards demo_disk (b "/v") (b "freddy")
    demo_keys demo_items backwards_ok demo_vault) as (s & R & F & G & N).
  destruct (C20_lock_succeeds toy_crypto latin1 utc _ backwards demo_disk s _ R) as (s' & R').
  exists s, s', [RError None; RError None]. split; [exact R|]. split; [|exact R'].
  destruct (open_vault toy_crypto toy_crypto_ok latin1 latin1_ok utc backwards demo_disk (b "/v") (b "freddy")
    demo_keys demo_items init backwards_ok demo_vault) as (p & l' & H1 & H2 & Hp); try reflexivity.
  assert (E : st_items s = Some l').
  { apply opening_run in R. destruct R as (s1 & R1 & R2). 
    assert (E1 := eq_trans (eq_sym H1) R1). apply ok_pair_inv in E1. destruct E1 as [-> _].
    assert (E2 := eq_trans (eq_sym H2) R2). apply ok_pair_inv in E2. destruct E2 as [-> _]. reflexivity. }
  unfold count_items, count_by. rewrite E. cbn [items_list].
  rewrite (Permutation_length (filter_perm _ _ _ Hp)). reflexivity.
Qed.

(** ** C21: a locked vault shows no items; and it is unlocked only if the last Unlock
    that succeeded came after the last Lock. *)
Theorem C21_locked_shows_nothing : forall C U tz s,
  reachable C U tz s -> is_unlocked s = false -> shows_nothing U s.
Proof.
  intros C U tz s Hr Hu. apply locked_shows_nothing. apply reachable_inv in Hr.
  apply (inv_locked _ Hr). unfold is_unlocked in Hu. destruct (st_keys s); [discriminate|reflexivity].
Qed.
Print Assumptions C21_locked_shows_nothing.

(** The reply of an Unlock of the history was success and no Lock follows it. *)
Definition unlocked_since (h : list event) (r : list reply) : Prop :=
  exists h1 O D v p h2 r1 r2,
    h = h1 ++ (O, D, OpUnlock v p) :: h2 /\ r = r1 ++ RError None :: r2 /\ length r1 = length h1 /\
    Forall (fun e => snd e <> OpLock) h2.

Lemma is_unlocked_step C U tz O D o s s' r :
  step C U tz O D o s = Ok (s', r) ->
  is_unlocked s' = match o with
                   | OpLock => false
                   | OpUnlock _ _ => match r with RError None => true | _ => is_unlocked s end
                   | _ => is_unlocked s
                   end.
Proof.
  destruct o; cbn [step]; intros H; try (injection H as <- <-; reflexivity).
  - apply rbind_ok in H. destruct H as ([s1 e] & H & E). injection E as <- <-. cbn [fst snd].
    unfold validate in H.
    destruct (stat D vault) as [[c m|]|]; [injection H as <- <-; reflexivity| |injection H as <- <-; reflexivity].
    destruct (stat D (profile_path vault)) as [[c m|]|];
      [|injection H as <- <-; reflexivity|injection H as <- <-; reflexivity].
    apply rbind_ok in H. destruct H as (p & _ & H). injection H as <- <-. reflexivity.
  - apply rbind_ok in H. destruct H as ([s1 e] & H & E). injection E as <- <-. cbn [fst snd].
    unfold unlock in H. apply rbind_ok in H. destruct H as ([ks|] & _ & H).
    + apply rbind_ok in H. destruct H as (l & _ & H). injection H as <- <-. reflexivity.
    + injection H as <- <-. reflexivity.
Qed.

Theorem C21_unlocked_since_unlock : forall C U tz h s r,
  run C U tz h init = Ok (s, r) -> (is_unlocked s = true <-> unlocked_since h r).
Proof.
  intros C U tz h. induction h as [|[[O D] o] h IH] using rev_ind; intros s r H.
  - injection H as <- <-. split; [discriminate|]. intros (h1 & O & D & v & p & h2 & r1 & r2 & E & _).
    destruct h1; discriminate.
  - rewrite run_app in H. destruct (run C U tz h init) as [[s1 r1]| |] eqn:E1; try discriminate.
    cbn [run] in H. destruct (step C U tz O D o s1) as [[s2 x]| |] eqn:E2; try discriminate.
    cbn [rbind fst snd] in H. injection H as <- <-. specialize (IH _ _ eq_refl).
    rewrite (is_unlocked_step _ _ _ _ _ _ _ _ _ E2).
    assert (Hold : o <> OpLock -> unlocked_since h r1 -> unlocked_since (h ++ [(O, D, o)]) (r1 ++ [x])).
    { intros Ho (h1 & O' & D' & v & p & h2 & q1 & q2 & -> & -> & Hl & Hf).
      exists h1, O', D', v, p, (h2 ++ [(O, D, o)]), q1, (q2 ++ [x]).
      rewrite <- !app_assoc. split; [reflexivity|]. split; [reflexivity|]. split; [exact Hl|].
      apply Forall_app. split; [exact Hf|]. constructor; [exact Ho|constructor]. }
    assert (Hlen := run_len _ _ _ _ _ _ _ E1).
    (* the last event is the unlock, or an earlier one is *)
    assert (Hnew : unlocked_since (h ++ [(O, D, o)]) (r1 ++ [x]) ->
      o <> OpLock /\ unlocked_since h r1 \/ exists v p, o = OpUnlock v p /\ x = RError None).
    { intros (h1 & O' & D' & v & p & h2 & q1 & q2 & Eh & Er & Hl & Hf).
      destruct h2 as [|e h2] using rev_ind.
      - apply app_inj_tail in Eh. destruct Eh as [-> Ee]. right. exists v, p. split; [congruence|].
        assert (q2 = []).
        { apply (f_equal (@length reply)) in Er. rewrite !app_length in Er. simpl in Er.
          destruct q2; [reflexivity|simpl in Er; unfold event in *; lia]. }
        subst q2. apply app_inj_tail in Er. tauto.
      - clear IHh2. left. change (h1 ++ (O', D', OpUnlock v p) :: h2 ++ [e])
          with (h1 ++ ((O', D', OpUnlock v p) :: h2) ++ [e]) in Eh. rewrite app_assoc in Eh.
        apply app_inj_tail in Eh. destruct Eh as [-> <-].
        apply Forall_app in Hf. destruct Hf as [Hf Hlast]. inversion Hlast as [|? ? Hne _]; subst. split; [exact Hne|].
        destruct q2 as [|y q2 _] using rev_ind.
        { apply (f_equal (@length reply)) in Er. unfold event in *.
          rewrite app_length in Er, Hlen. rewrite app_length in Er. simpl in Er, Hlen. lia. }
        change (q1 ++ RError None :: q2 ++ [y]) with (q1 ++ (RError None :: q2) ++ [y]) in Er.
        rewrite app_assoc in Er. apply app_inj_tail in Er. destruct Er as [-> _].
        exists h1, O', D', v, p, h2, q1, q2. auto. }
    destruct o; try (rewrite IH; split; [apply Hold; congruence|];
      intros Hc; destruct (Hnew Hc) as [[_ Hc']|(v & p & Hc' & _)]; [exact Hc'|congruence]).
    + assert (Hx : x = RError None \/ x <> RError None)
        by (destruct x as [[e|]| | | | | |]; auto; right; discriminate).
      destruct Hx as [->|Hx].
      * split; [|reflexivity]. intros _. exists h, O, D, vault, password, [], r1, [].
        split; [reflexivity|]. split; [reflexivity|]. split; [now symmetry|constructor].
      * assert (E : match x with RError None => true | _ => is_unlocked s1 end = is_unlocked s1)
          by (destruct x as [[e|]| | | | | |]; congruence).
        rewrite E, IH. split; [apply Hold; congruence|].
        intros Hc. destruct (Hnew Hc) as [[_ Hc']|(v & p & _ & Hc')]; [exact Hc'|congruence].
    + split; [discriminate|]. intros Hc. destruct (Hnew Hc) as [[Hc' _]|(v & p & Hc' & _)]; congruence.
Qed.
Print Assumptions C21_unlocked_since_unlock.

(** Locked before Unlock, after a refused one, and after Lock. *)
Example C21_example :
  let bad := [(forwards, demo_disk, OpValidate (b "/v")); (forwards, demo_disk, OpUnlock (b "/v") (b "wrong"))] in
  (exists s, run toy_crypto latin1 utc bad init = Ok (s, [RError None; RError (Some ErrInvalidPass)]) /\
             reachable toy_crypto latin1 utc s /\ is_unlocked s = false).
Proof.
  cbn zeta. eexists (MkState (Some (write_profile toy_crypto (b "freddy") demo_secrets)) None None registry).
  assert (R : run toy_crypto latin1 utc
    [(forwards, demo_disk, OpValidate (b "/v")); (forwards, demo_disk, OpUnlock (b "/v") (b "wrong"))] init =
    Ok (MkState (Some (write_profile toy_crypto (b "freddy") demo_secrets)) None None registry,
        [RError None; RError (Some ErrInvalidPass)])) by (vm_compute; reflexivity).
  split; [exact R|]. split; [|reflexivity].
  eexists _, _. split; [|exact R]. repeat (apply Forall_cons; [exact forwards_ok|]). constructor.
Qed.

(** ** C22: after a successful unlock the queries describe that vault. *)

(** Opening a vault without loading the profile again. *)
Lemma validate_keeps D path s p s' e :
  st_profile s = Some p -> validate D path s = Ok (s', e) -> s' = s.
Proof.
  intros Hp H. unfold validate in H. destruct s as [pr it ks reg]. cbn [st_profile] in *. subst pr.
  destruct (stat D path) as [[c m|]|]; try congruence.
  destruct (stat D (profile_path path)) as [[c m|]|]; try congruence.
  cbn in H. congruence.
Qed.

Lemma validate_from D path s s0 :
  st_profile s = None -> st_profile s0 = None ->
  validate D path s =
  match validate D path s0 with
  | Ok (s1, e) => Ok (MkState (st_profile s1) (st_items s) (st_keys s) (st_reg s), e)
  | Panic => Panic | Exit n => Exit n
  end.
Proof.
  destruct s as [pr it ks reg], s0 as [pr0 it0 ks0 reg0]. cbn [st_profile]. intros -> ->. unfold validate.
  destruct (stat D path) as [[c m|]|]; try reflexivity.
  destruct (stat D (profile_path path)) as [[c m|]|]; try reflexivity. cbn [st_profile].
  destruct (load_profile D path None); reflexivity.
Qed.

(** In a fresh process this call of Validate would load the profile [p] or none. *)
Definition of_profile (p : gmap json) (e : event) : Prop :=
  match e with
  | (_, D, OpValidate v) => forall s1, validate D v init = Ok (s1, None) ->
                            st_profile s1 = Some p \/ st_profile s1 = None
  | _ => True
  end.

Lemma profile_step C U tz O D o s s' r p :
  step C U tz O D o s = Ok (s', r) -> of_profile p (O, D, o) ->
  (st_profile s = None \/ st_profile s = Some p) -> st_profile s' = None \/ st_profile s' = Some p.
Proof.
  intros H Hp Hs. destruct o; cbn [step] in H; try (injection H as <- <-; exact Hs).
  - apply rbind_ok in H. destruct H as ([s1 e] & H & E). injection E as <- <-. cbn [fst snd].
    destruct Hs as [Hs|Hs].
    + rewrite (validate_from D vault s init Hs eq_refl) in H.
      destruct (validate D vault init) as [[s2 e2]| |] eqn:E; try discriminate.
      injection H as <- <-. cbn [st_profile]. cbn [of_profile] in Hp.
      destruct e2 as [e2|].
      * left. unfold validate in E. destruct (stat D vault) as [[c m|]|]; try (injection E as <- _; reflexivity).
        destruct (stat D (profile_path vault)) as [[c m|]|]; try (injection E as <- _; reflexivity).
        apply rbind_ok in E. destruct E as (q & _ & E). discriminate.
      * destruct (Hp _ E); auto.
    + rewrite (validate_keeps _ _ _ _ _ _ Hs H). auto.
  - apply rbind_ok in H. destruct H as ([s1 e] & H & E). injection E as <- <-. cbn [fst snd].
    unfold unlock in H. apply rbind_ok in H. destruct H as ([ks|] & _ & H).
    + apply rbind_ok in H. destruct H as (l & _ & H). injection H as <- <-. exact Hs.
    + injection H as <- <-. exact Hs.
Qed.

Lemma profile_run C U tz p h : forall s s' r,
  run C U tz h s = Ok (s', r) -> Forall (of_profile p) h ->
  (st_profile s = None \/ st_profile s = Some p) -> st_profile s' = None \/ st_profile s' = Some p.
Proof.
  induction h as [|[[O D] o] h IH]; intros s s' r H Hf Hs; cbn [run] in H.
  - injection H as <- <-. exact Hs.
  - inversion Hf as [|? ? Hp Hf']; subst.
    apply rbind_ok in H. destruct H as ([s1 r1] & H1 & H).
    apply rbind_ok in H. destruct H as ([s2 r2] & H2 & H). injection H as <- <-. cbn [fst] in *.
    exact (IH _ _ _ H2 Hf' (profile_step _ _ _ _ _ _ _ _ _ _ H1 Hp Hs)).
Qed.

(** Partial: it holds as long as the process is used with one vault profile only and
    Lock comes before the next Unlock, whatever else was called before. *)
Theorem C22_describes_that_vault_partial : forall C U, crypto_ok C -> unicode_ok U ->
  forall tz h s r O D path password ks items p s0,
  honest h -> run C U tz h init = Ok (s, r) -> is_unlocked s = false ->
  oracles_ok O -> vault_at C U tz D path password ks items ->
  validate D path init = Ok (s0, None) -> st_profile s0 = Some p -> Forall (of_profile p) h ->
  exists s', run C U tz (opening O D path password) s = Ok (s', [RError None; RError None]) /\
    is_unlocked s' = true /\
    (forall i, In i items -> get_item (it_uid i) (it_trashed i) s' = Some i) /\
    (forall uid trashed i, get_item uid trashed s' = Some i ->
       In i items /\ it_uid i = uid /\ it_trashed i = trashed).
Proof.
  intros C U HC HU tz h s r O D path password ks items p s0 Hh Hr Hl HO Hv H0 Hp Hf.
  assert (Hi : inv s) by (apply (reachable_inv C U tz); exists h, r; auto).
  assert (Hit : st_items s = None)
    by (apply (inv_locked _ Hi); unfold is_unlocked in Hl; destruct (st_keys s); [discriminate|reflexivity]).
  set (sn := MkState None None (st_keys s) (st_reg s)).
  destruct (open_vault C HC U HU tz O D path password ks items sn HO Hv) as (p' & l' & H1 & H2 & Hperm);
    try reflexivity; [exact (inv_reg _ Hi)|]. cbn [sn st_keys st_reg] in H1, H2.
  assert (Ep : p' = p).
  { rewrite (validate_from D path sn init eq_refl eq_refl), H0 in H1.
    injection H1 as E. cbn in E. congruence. }
  subst p'.
  assert (Hval : validate D path s = Ok (MkState (Some p) None (st_keys s) (st_reg s), None)).
  { destruct (profile_run C U tz p h init s r Hr Hf (or_introl eq_refl)) as [Es|Es].
    - rewrite (validate_from D path s init Es eq_refl), H0, Hp, Hit. reflexivity.
    - destruct (validate D path s) as [[s1 e]| |] eqn:E.
      + assert (Es1 := validate_keeps _ _ _ _ _ _ Es E). subst s1.
        replace (MkState (Some p) None (st_keys s) (st_reg s)) with s
          by (destruct s; cbn in *; congruence).
        f_equal. f_equal.
        (* the answer depends on the disk only *)
        unfold validate in E, H0. destruct (stat D path) as [[c m|]|]; try congruence.
        destruct (stat D (profile_path path)) as [[c m|]|]; try congruence.
        rewrite Es in E. cbn in E. congruence.
      + exfalso. unfold validate in E, H0. destruct (stat D path) as [[c m|]|]; try congruence.
        destruct (stat D (profile_path path)) as [[c m|]|]; try congruence.
        rewrite Es in E. discriminate.
      + exfalso. unfold validate in E, H0. destruct (stat D path) as [[c m|]|]; try congruence.
        destruct (stat D (profile_path path)) as [[c m|]|]; try congruence.
        rewrite Es in E. discriminate. }
  set (s2 := MkState (Some p) (Some l') (Some ks) (st_reg s)) in *.
  assert (Hrun : run C U tz (opening O D path password) s = Ok (s2, [RError None; RError None])).
  { unfold opening. cbn [run step]. rewrite Hval. cbn [rbind fst snd]. rewrite H2. reflexivity. }
  exists s2. split; [exact Hrun|]. split; [reflexivity|].
  assert (Hi2 : inv s2).
  { apply (inv_run C U tz (opening O D path password) s s2 [RError None; RError None]); [|exact Hi|exact Hrun].
    repeat (apply Forall_cons; [exact HO|]). constructor. }
  assert (Hn := inv_uids _ Hi2). split.
  - intros i Hin. apply find_first_spec; [exact Hn|]. split; [|auto].
    apply (Permutation_in _ (Permutation_sym Hperm)). exact Hin.
  - intros uid tr i Hg. apply find_first_spec in Hg; [|exact Hn]. destruct Hg as (Hin & E1 & E2).
    split; [|auto]. apply (Permutation_in _ Hperm). exact Hin.
Qed.
Print Assumptions C22_describes_that_vault_partial.

(** A history with a refused password, a successful opening, queries and Lock. *)
Example C22_partial_example :
  let h := [(forwards, demo_disk, OpValidate (b "/v")); (forwards, demo_disk, OpUnlock (b "/v") (b "wrong"));
            (backwards, demo_disk, OpUnlock (b "/v") (b "freddy")); (forwards, demo_disk, OpCategories);
            (forwards, demo_disk, OpLock)] in
  exists s r s0, honest h /\ run toy_crypto latin1 utc h init = Ok (s, r) /\ is_unlocked s = false /\
    validate demo_disk (b "/v") init = Ok (s0, None) /\
    let p := write_profile toy_crypto (b "freddy") demo_secrets in
    st_profile s0 = Some p /\ Forall (of_profile p) h.
Proof.
  cbn zeta.
  set (p := write_profile toy_crypto (b "freddy") demo_secrets).
  assert (V : validate demo_disk (b "/v") init = Ok (MkState (Some p) None None registry, None))
    by (vm_compute; reflexivity).
  exists (MkState (Some p) None None (sort_cats registry)),
    [RError None; RError (Some ErrInvalidPass); RError None; RCats (sort_cats registry); RUnit],
    (MkState (Some p) None None registry).
  split; [repeat (apply Forall_cons; [first [exact forwards_ok|exact backwards_ok]|]); constructor|].
  split; [vm_compute; reflexivity|]. split; [reflexivity|]. split; [exact V|]. split; [reflexivity|].
  repeat (apply Forall_cons; [try exact I|]); [|constructor]. cbn [of_profile]. intros s1 E. rewrite V in E.
  injection E as <-. left. reflexivity.
Qed.

(** In general it is false.  Once a profile is loaded no Validate replaces it, so a
    password is checked against the first vault's profile: the right password of
    another vault is refused.  And Unlock while unlocked keeps the old items. *)
Theorem C22_describes_that_vault_refuted : forall C U tz O D path password s p,
  st_profile s = Some p ->
  (* the right password is refused unless it opens the first vault too *)
  (forall ks items salt iterations st mt m,
     vault_at C U tz D path password ks items ->
     has_str (b "salt") p st -> b64_decode st = (salt, true) ->
     mget (b "iterations") p = Some (JNum iterations) ->
     has_str (b "masterKey") p mt -> b64_decode mt = (m, true) -> 32 <= length m ->
     ~ authentic C (skipn 32 (pbkdf2 C password salt (f64_to_int64 iterations))) m ->
     run C U tz (opening O D path password) s = Ok (s, [RError None; RError (Some ErrInvalidPass)])) /\
  (* and when the session is unlocked, whatever Unlock answers, the items stay *)
  (forall h s' r, is_unlocked s = true -> reachable C U tz s -> Forall (fun e => snd e <> OpLock) h ->
     run C U tz h s = Ok (s', r) ->
     forall uid trashed, get_item uid trashed s' = get_item uid trashed s).
Proof.
  intros C U tz O D path password s p Hp. split.
  - intros ks items salt it st mt m [(L & q & bands & Hd & Hpp & Hpr & _)] H1 H2 H3 H4 H5 H6 H7.
    assert (V := validate_at D path L q init Hd Hpr eq_refl).
    assert (Hval : validate D path s = Ok (s, None)).
    { unfold validate in V |- *. destruct (stat D path) as [[c mm|]|]; try congruence.
      destruct (stat D (profile_path path)) as [[c mm|]|]; try congruence.
      rewrite Hp. cbn. rewrite <- Hp. destruct s; reflexivity. }
    unfold opening. cbn [run step]. rewrite Hval. cbn [rbind fst snd].
    rewrite (C11_wrong_password_refused C U tz O D path password s p salt it st mt m Hp H1 H2 H3 H4 H5 H6 H7).
    reflexivity.
  - intros h s' r Hu Hr. apply reachable_inv in Hr.
    assert (Hit : exists l, st_items s = Some l).
    { destruct (st_items s) eqn:E; [eauto|]. exfalso. apply (inv_unlocked _ Hr); [|exact E].
      unfold is_unlocked in Hu. destruct (st_keys s); congruence. }
    destruct Hit as (l & Hl). intros Hf Hrun uid tr.
    assert (Hl' : st_items s' = Some l); [|unfold get_item; now rewrite Hl, Hl'].
    clear Hp Hu Hr. revert s s' r Hl Hf Hrun. induction h as [|[[O' D'] o] h IH]; intros s s' r Hl Hf Hrun; cbn [run] in Hrun.
    + injection Hrun as <- <-. exact Hl.
    + inversion Hf as [|? ? Ho Hf']; subst. cbn [snd] in Ho.
      apply rbind_ok in Hrun. destruct Hrun as ([s1 r1] & H1 & H).
      apply rbind_ok in H. destruct H as ([s2 r2] & H2 & H). injection H as <- <-. cbn [fst] in *.
      refine (IH _ _ _ _ Hf' H2). destruct o; cbn [step] in H1; try (injection H1 as <- <-; exact Hl); [| |congruence].
      * apply rbind_ok in H1. destruct H1 as ([s3 e] & H & E). injection E as <- <-. cbn [fst snd].
        unfold validate in H. destruct (stat D' vault) as [[c m|]|]; try (injection H as <- _; exact Hl).
        destruct (stat D' (profile_path vault)) as [[c m|]|]; try (injection H as <- _; exact Hl).
        apply rbind_ok in H. destruct H as (q & _ & H). injection H as <- _. exact Hl.
      * apply rbind_ok in H1. destruct H1 as ([s3 e] & H & E). injection E as <- <-. cbn [fst snd].
        unfold unlock in H. apply rbind_ok in H. destruct H as ([ks|] & _ & H).
        -- apply rbind_ok in H. destruct H as (l0 & _ & H). injection H as <- _. cbn [st_items].
           rewrite Hl. reflexivity.
        -- injection H as <- _. exact Hl.
Qed.
Print Assumptions C22_describes_that_vault_refuted.

(** Two vaults: /v has the password "freddy", /w "other" and one item. *)
Definition two_vaults : disk :=
  MkDisk (d_fs demo_disk ++ d_fs (write_disk toy_crypto (b "w") (b "other")
            (MkSecrets (b "tlas") 500 (b "second") (b "sover")) [(b "band_0.js", [demo_card])]))
         [] (fun _ => false).

Example C22_example :
  let call o := (forwards, two_vaults, o) in
  (* alone, /w opens with its password *)
  (exists s i, run toy_crypto latin1 utc
     [call (OpValidate (b "/w")); call (OpUnlock (b "/w") (b "other")); call (OpGetItem (b "BB") false)] init
     = Ok (s, [RError None; RError None; RItem (Some i)]) /\ it_title i = b "Visa") /\
  (* after Validate of /v its password is refused *)
  (exists s, run toy_crypto latin1 utc
     [call (OpValidate (b "/v")); call (OpValidate (b "/w")); call (OpUnlock (b "/w") (b "other"))] init
     = Ok (s, [RError None; RError None; RError (Some ErrInvalidPass)])) /\
  (* and the password of /v is accepted for /w, with blank items *)
  (exists s i, run toy_crypto latin1 utc
     [call (OpValidate (b "/v")); call (OpValidate (b "/w")); call (OpUnlock (b "/w") (b "freddy"));
      call (OpGetItem (b "BB") false)] init
     = Ok (s, [RError None; RError None; RError None; RItem (Some i)]) /\ it_title i = []) /\
  (* a second Unlock keeps the three items of /v *)
  (exists s, run toy_crypto latin1 utc
     [call (OpValidate (b "/v")); call (OpUnlock (b "/v") (b "freddy")); call (OpUnlock (b "/w") (b "freddy"));
      call (OpCount None false); call (OpCount None true)] init
     = Ok (s, [RError None; RError None; RError None; RCount 2; RCount 1])).
Proof.
  cbn zeta.
  split; [|split; [|split]].
  - match goal with |- exists s i, run ?C ?U ?t ?h ?s0 = _ /\ _ =>
      let v := eval vm_compute in (run C U t h s0) in
      match v with Ok (?s, [_; _; RItem (Some ?i)]) => exists s, i end end.
    split; vm_compute; reflexivity.
  - match goal with |- exists s, run ?C ?U ?t ?h ?s0 = _ =>
      let v := eval vm_compute in (run C U t h s0) in
      match v with Ok (?s, _) => exists s end end.
    vm_compute; reflexivity.
  - match goal with |- exists s i, run ?C ?U ?t ?h ?s0 = _ /\ _ =>
      let v := eval vm_compute in (run C U t h s0) in
      match v with Ok (?s, [_; _; _; RItem (Some ?i)]) => exists s, i end end.
    split; vm_compute; reflexivity.
  - match goal with |- exists s, run ?C ?U ?t ?h ?s0 = _ =>
      let v := eval vm_compute in (run C U t h s0) in
      match v with Ok (?s, _) => exists s end end.
    vm_compute; reflexivity.
Qed.

(** ** C23: queries are read-only.  A query put anywhere into a history changes
    neither the other replies, nor whether the process survives, nor the state. *)
Theorem C23_queries_read_only : forall C U tz h1 h2 O D q s,
  is_query q ->
  match run C U tz (h1 ++ h2) s with
  | Ok (s', r) => exists x, run C U tz (h1 ++ (O, D, q) :: h2) s =
                            Ok (s', firstn (length h1) r ++ x :: skipn (length h1) r)
  | Panic => run C U tz (h1 ++ (O, D, q) :: h2) s = Panic
  | Exit n => run C U tz (h1 ++ (O, D, q) :: h2) s = Exit n
  end.
Proof.
  intros C U tz h1 h2 O D q s Hq. rewrite !run_app.
  destruct (run C U tz h1 s) as [[s1 r1]| |] eqn:E1; try reflexivity.
  destruct (query_ok C U tz O D q s1 Hq) as (x & Hx). cbn [run]. rewrite Hx. cbn [rbind fst snd].
  destruct (run C U tz h2 s1) as [[s2 r2]| |]; cbn [rbind fst snd]; try reflexivity.
  exists x. rewrite (firstn_app_exact r1 r2), (skipn_app_exact r1 r2); [reflexivity| |];
    symmetry; exact (run_len _ _ _ _ _ _ _ E1).
Qed.
Print Assumptions C23_queries_read_only.

(** Listing the categories reorders the shared list, but this too changes no other
    reply. *)
Definition like (s s' : state) : Prop :=
  st_profile s = st_profile s' /\ st_items s = st_items s' /\ st_keys s = st_keys s' /\
  Permutation (st_reg s) registry /\ Permutation (st_reg s') registry.

Lemma decode_items_reg C U tz O D reg reg' v ks :
  Permutation reg registry -> Permutation reg' registry ->
  decode_items C U tz O D reg v ks = decode_items C U tz O D reg' v ks.
Proof.
  intros H H'. unfold decode_items. destruct (load_items O D v) as [raws| |]; cbn [rbind]; try reflexivity.
  assert (E : rmap (decode_item C U tz reg ks) raws = rmap (decode_item C U tz reg' ks) raws); [|now rewrite E].
  induction raws as [|r raws IH]; [reflexivity|]. cbn [rmap].
  assert (E : decode_item C U tz reg ks r = decode_item C U tz reg' ks r)
    by (unfold decode_item; now rewrite (cat_from_code_perm reg reg' (r_cat r) H H')).
  now rewrite E, IH.
Qed.

Lemma sort_cats_unique reg reg' :
  Permutation reg registry -> Permutation reg' registry -> sort_cats reg = sort_cats reg'.
Proof.
  intros H H'.
  assert (Hn : forall r, Permutation r registry -> NoDup (map cat_code r)).
  { intros r Hr. apply (Permutation_NoDup (Permutation_sym (Permutation_map cat_code Hr))).
    apply nodupb_ok. reflexivity. }
  assert (P : Permutation (sort_cats reg) (sort_cats reg')).
  { rewrite !sort_cats_perm, H, H'. reflexivity. }
  assert (S := sort_cats_sorted reg (Hn _ H)). assert (S' := sort_cats_sorted reg' (Hn _ H')).
  clear H H' Hn. revert S S' P. generalize (sort_cats reg) (sort_cats reg'). clear reg reg'.
  intros l. induction l as [|x l IH]; intros l' S S' P.
  - apply Permutation_nil in P. now rewrite P.
  - destruct l' as [|y l']; [symmetry in P; apply Permutation_nil in P; discriminate|].
    inversion S as [|? ? S1 Hx]; subst. inversion S' as [|? ? S1' Hy]; subst. rewrite Forall_forall in Hx, Hy.
    assert (E : x = y).
    { assert (A : In x (y :: l')) by (apply (Permutation_in _ P); now left).
      assert (A' : In y (x :: l)) by (apply (Permutation_in _ (Permutation_sym P)); now left).
      destruct A as [A|A]; [now symmetry|]. destruct A' as [A'|A']; [assumption|].
      specialize (Hx _ A'). specialize (Hy _ A). unfold code_lt in *.
      rewrite (bytes_ltb_asym _ _ Hx) in Hy. discriminate. }
    subst y. f_equal. apply IH; auto. now apply Permutation_cons_inv in P.
Qed.

Lemma step_like C U tz O D o s1 s2 :
  like s1 s2 ->
  match step C U tz O D o s1, step C U tz O D o s2 with
  | Ok (s1', r1), Ok (s2', r2) => like s1' s2' /\ r1 = r2
  | Panic, Panic => True
  | Exit n, Exit m => n = m
  | _, _ => False
  end.
Proof.
  destruct s1 as [p i k r], s2 as [p2 i2 k2 r2]. intros (H1 & H2 & H3 & H4 & H5).
  cbn [st_profile st_items st_keys st_reg] in *. subst p2 i2 k2.
  destruct o; cbn [step]; try (split; [repeat (split; [reflexivity|]); cbn; auto|reflexivity]).
  - unfold validate. cbn [st_profile st_items st_keys st_reg].
    destruct (stat D vault) as [[c m|]|]; try (cbn; split; [repeat (split; [reflexivity|]); cbn; auto|reflexivity]).
    destruct (stat D (profile_path vault)) as [[c m|]|];
      try (cbn; split; [repeat (split; [reflexivity|]); cbn; auto|reflexivity]).
    destruct (load_profile D vault p); cbn; auto. split; [repeat (split; [reflexivity|]); cbn; auto|reflexivity].
  - unfold unlock. cbn [st_profile st_items st_keys st_reg].
    destruct (unlock_keys C p password) as [[ks|]| |]; cbn [rbind fst snd]; auto;
      [|split; [repeat (split; [reflexivity|]); cbn; auto|reflexivity]].
    rewrite (decode_items_reg C U tz O D r r2 vault ks H4 H5).
    destruct (decode_items C U tz O D r2 vault ks); cbn [rbind fst snd]; auto.
    split; [repeat (split; [reflexivity|]); cbn; auto|reflexivity].
  - cbn [st_reg st_profile st_items st_keys]. rewrite (sort_cats_unique r r2 H4 H5). split; [|reflexivity].
    repeat (split; [reflexivity|]). cbn [st_reg]. split; now rewrite sort_cats_perm.
Qed.

Lemma run_like C U tz h : forall s1 s2,
  like s1 s2 ->
  match run C U tz h s1, run C U tz h s2 with
  | Ok (s1', r1), Ok (s2', r2) => like s1' s2' /\ r1 = r2
  | Panic, Panic => True
  | Exit n, Exit m => n = m
  | _, _ => False
  end.
Proof.
  induction h as [|[[O D] o] h IH]; intros s1 s2 H; cbn [run]; [auto|].
  assert (S := step_like C U tz O D o s1 s2 H).
  destruct (step C U tz O D o s1) as [[t1 q1]| |], (step C U tz O D o s2) as [[t2 q2]| |];
    cbn [rbind fst snd]; try tauto.
  destruct S as [S ->]. specialize (IH t1 t2 S).
  destruct (run C U tz h t1) as [[u1 w1]| |], (run C U tz h t2) as [[u2 w2]| |]; cbn [rbind fst snd]; try tauto.
  destruct IH as [IH ->]. auto.
Qed.

Theorem C23_listing_categories_harmless : forall C U tz h1 h2 O D,
  honest h1 ->
  match run C U tz (h1 ++ h2) init with
  | Ok (_, r) => exists s x, run C U tz (h1 ++ (O, D, OpCategories) :: h2) init =
                             Ok (s, firstn (length h1) r ++ RCats x :: skipn (length h1) r)
  | Panic => run C U tz (h1 ++ (O, D, OpCategories) :: h2) init = Panic
  | Exit n => run C U tz (h1 ++ (O, D, OpCategories) :: h2) init = Exit n
  end.
Proof.
  intros C U tz h1 h2 O D Hh. rewrite !run_app.
  destruct (run C U tz h1 init) as [[s1 r1]| |] eqn:E1; try reflexivity.
  assert (Hi := inv_run C U tz h1 init s1 r1 Hh inv_init E1). cbn [run step rbind fst snd].
  set (s1' := MkState (st_profile s1) (st_items s1) (st_keys s1) (sort_cats (st_reg s1))).
  assert (Hl : like s1 s1').
  { repeat (split; [reflexivity|]). split; [apply (inv_reg _ Hi)|].
    cbn [s1' st_reg]. rewrite sort_cats_perm. apply (inv_reg _ Hi). }
  assert (R := run_like C U tz h2 s1 s1' Hl).
  destruct (run C U tz h2 s1) as [[s2 r2]| |], (run C U tz h2 s1') as [[s2' r2']| |];
    cbn [rbind fst snd]; try tauto; try congruence.
  destruct R as [_ <-].
  exists s2', (sort_cats (st_reg s1)). rewrite (firstn_app_exact r1 r2), (skipn_app_exact r1 r2); [reflexivity| |];
    symmetry; exact (run_len _ _ _ _ _ _ _ E1).
Qed.
Print Assumptions C23_listing_categories_harmless.

Example C23_example : is_query (OpGetItems None (b "vi") false) /\ is_query (OpGetItem (b "BB") false) /\
  is_query (OpCount None true) /\ is_query OpIsUnlocked /\
  exists s, run toy_crypto latin1 utc
    (opening forwards demo_disk (b "/v") (b "freddy") ++
     [(forwards, demo_disk, OpGetItems None (b "vi") false); (forwards, demo_disk, OpCount None true)]) init =
    Ok (s, [RError None; RError None; RItems [MkSimple (Cat (b "002") (b "Credit Card")) (b "Visa") false (b "BB")];
            RCount 1]).
Proof.
  repeat (split; [exact I|]).
  match goal with |- exists s, run ?C ?U ?t ?h ?s0 = _ =>
    let v := eval vm_compute in (run C U t h s0) in match v with Ok (?s, _) => exists s end end.
  vm_compute; reflexivity.
Qed.

(** ** C24: a listing has one row for every held item that answers the query and no
    other row. *)
Lemma listing_perm C U tz O s cat t trashed :
  oracles_ok O -> reachable C U tz s ->
  Permutation (get_items U O cat t trashed s) (map row_of (find_by U cat t trashed (st_items s))).
Proof. intros HO _. exact (get_items_perm U O cat t trashed s HO). Qed.

Lemma cat_matches_spec cat i : cat_matches cat i = true <-> forall c, cat = Some c -> it_cat i = c.
Proof.
  unfold cat_matches. destruct cat as [c|].
  - unfold cat_eqb. rewrite andb_true_iff, !bytes_eqb_eq. split.
    + intros [H1 H2] c' [= <-]. destruct (it_cat i), c; cbn in *; congruence.
    + intros H. rewrite (H c eq_refl). auto.
  - split; [intros _ c H; discriminate|reflexivity].
Qed.

Lemma find_by_answers U cat t tr items i :
  In i (find_by U cat t tr items) <-> In i (items_list items) /\ answers U cat t tr i.
Proof. rewrite find_by_spec, cat_matches_spec. unfold answers. tauto. Qed.

Theorem C24_listing_exact : forall C U tz O s cat t trashed,
  oracles_ok O -> reachable C U tz s ->
  let rows := get_items U O cat t trashed s in
  (forall row, In row rows <-> exists i, held s i /\ answers U cat t trashed i /\ row = row_of i) /\
  NoDup (map s_uid rows).
Proof.
  intros C U tz O s cat t tr HO Hr rows.
  assert (P := listing_perm C U tz O s cat t tr HO Hr). fold rows in P.
  assert (Hh := held_spec C U tz s Hr). assert (Hi := reachable_inv C U tz s Hr). split.
  - intros row. split.
    + intros H. apply (Permutation_in _ P) in H. apply in_map_iff in H. destruct H as (i & <- & H).
      apply find_by_answers in H. exists i. split; [now apply Hh|]. tauto.
    + intros (i & H1 & H2 & ->). apply (Permutation_in _ (Permutation_sym P)).
      apply in_map. apply find_by_answers. split; [now apply Hh|exact H2].
  - apply (Permutation_NoDup (Permutation_sym (Permutation_map s_uid P))).
    rewrite map_map. cbn [row_of s_uid]. change (fun x : item => it_uid x) with it_uid.
    unfold find_by. assert (Hn := inv_uids _ Hi). revert Hn.
    generalize (items_list (st_items s)) as l. clear. intros l.
    induction l as [|x l IH]; intros Hn; [constructor|]. cbn [map] in Hn. inversion Hn as [|? ? Hx Hn']; subst.
    cbn [filter]. match goal with |- context [if ?c then _ else _] => destruct c end; [|auto].
    cbn [map]. constructor; [|auto]. intros Hin. apply Hx. apply in_map_iff in Hin.
    destruct Hin as (y & <- & Hin). apply filter_In in Hin. apply in_map. tauto.
Qed.
Print Assumptions C24_listing_exact.

(** For a vault that was opened, the held items are those of the vault. *)
Lemma opened_listing : forall C U, crypto_ok C -> unicode_ok U ->
  forall tz O D path password ks items,
  oracles_ok O -> vault_at C U tz D path password ks items ->
  exists s, run C U tz (opening O D path password) init = Ok (s, [RError None; RError None]) /\
    (forall i, held s i <-> In i items) /\
    forall O' cat t trashed, oracles_ok O' ->
      Permutation (map s_uid (get_items U O' cat t trashed s))
        (map it_uid (filter (fun i => cat_matches cat i && Bool.eqb (it_trashed i) trashed
                                      && contains (to_lower U (it_title i)) (to_lower U t)) items)).
Proof.
  intros C U HC HU tz O D path password ks items HO Hv.
  destruct (open_vault C HC U HU tz O D path password ks items init HO Hv) as (p & l' & H1 & H2 & Hp);
    try reflexivity.
  eexists. split; [apply opening_run; eauto|].
  assert (Hr := opening_reachable C U tz O D path password _ [RError None; RError None] HO
                  (proj2 (opening_run C U tz O D path password _) (ex_intro _ _ (conj H1 H2)))).
  split.
  - intros i. rewrite (held_spec C U tz _ Hr). cbn [st_items items_list].
    split; apply Permutation_in; [exact Hp|now symmetry].
  - intros O' cat t tr HO'.
    rewrite (Permutation_map s_uid (listing_perm C U tz O' _ cat t tr HO' Hr)). rewrite map_map. cbn [row_of s_uid].
    apply Permutation_map. unfold find_by. cbn [st_items items_list].
    rewrite (filter_perm _ _ _ Hp).
    assert (E : forall i, (match to_lower U t with [] => true | _ => contains (to_lower U (it_title i)) (to_lower U t) end)
                  && cat_matches cat i && Bool.eqb (it_trashed i) tr =
                cat_matches cat i && Bool.eqb (it_trashed i) tr && contains (to_lower U (it_title i)) (to_lower U t)).
    { intros i. replace (match to_lower U t with [] => true | _ => contains (to_lower U (it_title i)) (to_lower U t) end)
        with (contains (to_lower U (it_title i)) (to_lower U t)).
      - destruct (contains _ _), (cat_matches cat i), (Bool.eqb (it_trashed i) tr); reflexivity.
      - destruct (to_lower U t); [|reflexivity]. apply contains_spec. exists [], (to_lower U (it_title i)). reflexivity. }
    rewrite (filter_ext _ _ E). reflexivity.
Qed.

(** For a vault that was opened, the listed items are those of the vault. *)
Theorem C24_listing_of_vault : forall C U, crypto_ok C -> unicode_ok U ->
  forall tz O D path password ks items,
  oracles_ok O -> vault_at C U tz D path password ks items ->
  exists s, run C U tz (opening O D path password) init = Ok (s, [RError None; RError None]) /\
    (forall i, held s i <-> In i items) /\
    forall O' cat t trashed, oracles_ok O' ->
      let rows := get_items U O' cat t trashed s in
      (forall row, In row rows <-> exists i, In i items /\ answers U cat t trashed i /\ row = row_of i) /\
      NoDup (map s_uid rows).
Proof.
  intros C U HC HU tz O D path password ks items HO Hv.
  destruct (opened_listing C U HC HU tz O D path password ks items HO Hv) as (s & Hr & Hh & _).
  exists s. split; [exact Hr|]. split; [exact Hh|]. intros O' cat t trashed HO'.
  destruct (C24_listing_exact C U tz O' s cat t trashed HO' (opening_reachable C U tz O D path password s _ HO Hr)) as [E1 E2].
  split; [|exact E2]. intros row. rewrite (E1 row). split; intros (i & X & X'); exists i; (split; [now apply Hh|exact X']).
Qed.
Print Assumptions C24_listing_of_vault.

Example C24_example :
  vault_at toy_crypto latin1 utc demo_disk (b "/v") (b "freddy") demo_keys demo_items /\
  Exists (answers latin1 (Some (Cat (b "002") (b "Credit Card"))) (b "VI") false) demo_items /\
  Exists (fun i => ~ answers latin1 None (b "VI") false i) demo_items.
Proof.
  split; [exact demo_vault|]. split.
  - do 2 apply Exists_cons_tl. apply Exists_cons_hd. split; [intros c [= <-]; reflexivity|].
    split; [reflexivity|]. exists [], (b "sa"). reflexivity.
  - apply Exists_cons_tl, Exists_cons_hd. intros (_ & H & _). discriminate.
Qed.

(** ** C25: listings are sorted, and two openings of the same vault list the same
    (category, title) sequence whatever the runtime chooses. *)
Theorem C25_listing_sorted : forall U O s cat t trashed,
  oracles_ok O -> StronglySorted row_before (get_items U O cat t trashed s).
Proof.
  intros U O s cat t tr HO. unfold get_items, get_simple_items.
  assert (H := sort_sorted O HO (map simple_of (find_by U cat t tr (st_items s)))).
  induction H as [|x l Hl IH Hx]; [constructor|]. constructor; [exact IH|].
  eapply Forall_impl; [|exact Hx]. intros y. apply row_le_before.
Qed.
Print Assumptions C25_listing_sorted.

Lemma decode_items_orders C U tz O1 O2 D reg v ks l1 :
  oracles_ok O1 -> oracles_ok O2 -> decode_items C U tz O1 D reg v ks = Ok l1 ->
  exists l2, decode_items C U tz O2 D reg v ks = Ok l2 /\ Permutation l1 l2.
Proof.
  intros H1 H2 H. unfold decode_items in *. apply rbind_ok in H. destruct H as (raws & Hl & H).
  apply rbind_ok in H. destruct H as (os & Hd & H). injection H as <-.
  assert (Hl2 : exists raws2, load_items O2 D v = Ok raws2 /\ Permutation raws raws2).
  { unfold load_items in *. destruct (glob D (bands_glob v)) as [[|f fl]|]; [|  |discriminate].
    - injection Hl as <-. exists []. split; [reflexivity|constructor].
    - apply rbind_ok in Hl. destruct Hl as (text & Ht & Hl). rewrite Ht. cbn [rbind]. cbn zeta in *.
      destruct (unmarshal_map _) as [[m|] [|]]; try discriminate.
      + apply (rmap_perm raw_of_entry (o_iter O1 m)); [|exact Hl].
        rewrite (iter_perm O1 H1), (iter_perm O2 H2). reflexivity.
      + injection Hl as <-. exists []. split; [reflexivity|constructor]. }
  destruct Hl2 as (raws2 & Hl2 & Hp). rewrite Hl2. cbn [rbind].
  destruct (rmap_perm _ _ _ _ Hp Hd) as (os2 & Hd2 & Hp2). rewrite Hd2. cbn [rbind].
  exists (somes os2). split; [reflexivity|]. now apply somes_perm.
Qed.

Lemma opening_orders C U tz O1 O2 D path password s1 :
  oracles_ok O1 -> oracles_ok O2 ->
  run C U tz (opening O1 D path password) init = Ok (s1, [RError None; RError None]) ->
  exists s2, run C U tz (opening O2 D path password) init = Ok (s2, [RError None; RError None]) /\
    Permutation (items_list (st_items s1)) (items_list (st_items s2)).
Proof.
  intros H1 H2 R. apply opening_run in R. destruct R as (s0 & Hv & Hu).
  assert (Hu' := Hu). apply unlock_inv in Hu'. destruct Hu' as (ks & l & Hk & Hd & ->).
  destruct (decode_items_orders C U tz O1 O2 D _ _ _ _ H1 H2 Hd) as (l2 & Hd2 & Hp).
  eexists. split.
  - apply opening_run. exists s0. split; [exact Hv|]. unfold unlock. rewrite Hk. cbn [rbind]. rewrite Hd2.
    cbn [rbind]. reflexivity.
  - assert (Hi : st_items s0 = None).
    { unfold validate in Hv. destruct (stat D path) as [[c m|]|]; try congruence.
      destruct (stat D (profile_path path)) as [[c m|]|]; try congruence.
      apply rbind_ok in Hv. destruct Hv as (q & _ & Hv). cbn in Hv. injection Hv as <-. reflexivity. }
    cbn [st_items]. rewrite Hi. exact Hp.
Qed.

Theorem C25_listing_reproducible : forall C U tz O1 O2 D path password s1,
  oracles_ok O1 -> oracles_ok O2 ->
  run C U tz (opening O1 D path password) init = Ok (s1, [RError None; RError None]) ->
  exists s2, run C U tz (opening O2 D path password) init = Ok (s2, [RError None; RError None]) /\
    forall O3 O4 cat t trashed, oracles_ok O3 -> oracles_ok O4 ->
      map (fun row => (s_cat row, s_title row)) (get_items U O3 cat t trashed s1) =
      map (fun row => (s_cat row, s_title row)) (get_items U O4 cat t trashed s2).
Proof.
  intros C U tz O1 O2 D path password s1 H1 H2 R.
  destruct (opening_orders C U tz O1 O2 D path password s1 H1 H2 R) as (s2 & R2 & P).
  exists s2. split; [exact R2|]. intros O3 O4 cat t tr H3 H4.
  assert (I1 := reachable_inv C U tz s1 (opening_reachable C U tz O1 D path password s1 _ H1 R)).
  assert (I2 := reachable_inv C U tz s2 (opening_reachable C U tz O2 D path password s2 _ H2 R2)).
  assert (K : map row_key (get_items U O3 cat t tr s1) = map row_key (get_items U O4 cat t tr s2)).
  { apply sorted_rows_unique; [apply (sort_sorted O3 H3)|apply (sort_sorted O4 H4)|].
    rewrite (Permutation_map row_key (get_items_perm U O3 cat t tr s1 H3)).
    rewrite (Permutation_map row_key (get_items_perm U O4 cat t tr s2 H4)).
    do 2 apply Permutation_map. unfold find_by. now apply filter_perm. }
  assert (F : forall s O, inv s -> oracles_ok O ->
    Forall (fun row => In (s_cat row) registry) (get_items U O cat t tr s)).
  { intros s O Hi HO. apply Forall_forall. intros row Hin.
    apply (Permutation_in _ (get_items_perm U O cat t tr s HO)) in Hin. apply in_map_iff in Hin.
    destruct Hin as (i & <- & Hin). apply find_by_answers in Hin.
    assert (Hc := inv_cats _ Hi). rewrite Forall_forall in Hc. apply Hc. tauto. }
  assert (F1 := F s1 O3 I1 H3). assert (F2 := F s2 O4 I2 H4). clear F P I1 I2 R R2.
  revert K F1 F2. generalize (get_items U O3 cat t tr s1) (get_items U O4 cat t tr s2).
  intros l. induction l as [|x l IH]; intros [|y l'] K F1 F2; try discriminate; [reflexivity|].
  cbn [map] in *. inversion F1 as [|? ? Fx F1']; subst. inversion F2 as [|? ? Fy F2']; subst.
  unfold row_key in K at 1 3. injection K as Kc Kt K. f_equal; [|now apply IH].
  f_equal; [|exact Kt]. apply (nodup_map_inj cat_code registry); auto. apply nodupb_ok. reflexivity.
Qed.
Print Assumptions C25_listing_reproducible.

(** Two orders of iteration and two sorting algorithms on the same vault. *)
Example C25_example :
  exists s1 s2,
    run toy_crypto latin1 utc (opening forwards demo_disk (b "/v") (b "freddy")) init
      = Ok (s1, [RError None; RError None]) /\
    run toy_crypto latin1 utc (opening backwards demo_disk (b "/v") (b "freddy")) init
      = Ok (s2, [RError None; RError None]) /\
    st_items s1 <> st_items s2 /\
    map s_title (get_items latin1 forwards None [] false s1) = [b "Mail"; b "Visa"] /\
    map s_title (get_items latin1 backwards None [] false s2) = [b "Mail"; b "Visa"].
Proof.
  match goal with |- exists s1 s2, run ?C ?U ?t ?h ?s0 = _ /\ run _ _ _ ?h' _ = _ /\ _ =>
    let v := eval vm_compute in (run C U t h s0) in
    let v' := eval vm_compute in (run C U t h' s0) in
    match v with Ok (?s, _) => match v' with Ok (?s', _) => exists s, s' end end end.
  split; [vm_compute; reflexivity|]. split; [vm_compute; reflexivity|].
  split; [discriminate|]. split; vm_compute; reflexivity.
Qed.

(** ** C26: counts agree with listings. *)
Lemma filter_len_ext {A} (p q : A -> bool) l : (forall x, p x = q x) -> length (filter p l) = length (filter q l).
Proof. intros H. now rewrite (filter_ext p q H). Qed.

Theorem C26_count_is_listing : forall U O s cat trashed,
  oracles_ok O -> count_items cat trashed s = length (get_items U O cat [] trashed s).
Proof.
  intros U O s cat tr HO. rewrite (Permutation_length (get_items_perm U O cat [] tr s HO)), map_length.
  reflexivity.
Qed.
Print Assumptions C26_count_is_listing.

Lemma count_split (reg : list category) (p : item -> bool) l :
  NoDup reg -> Forall (fun i => In (it_cat i) reg) l ->
  length (filter p l) = list_sum (map (fun c => length (filter (fun i => cat_matches (Some c) i && p i) l)) reg).
Proof.
  intros Hn Hf. induction Hf as [|i l Hi Hf IH].
  - cbn. clear Hn. induction reg; cbn; auto.
  - cbn [filter]. transitivity ((if p i then 1 else 0) + length (filter p l)); [destruct (p i); reflexivity|].
    rewrite IH.
    assert (E : forall c, length (if cat_matches (Some c) i && p i
                                  then i :: filter (fun i => cat_matches (Some c) i && p i) l
                                  else filter (fun i => cat_matches (Some c) i && p i) l)
                = (if cat_matches (Some c) i && p i then 1 else 0)
                  + length (filter (fun i => cat_matches (Some c) i && p i) l))
      by (intros c; destruct (cat_matches (Some c) i && p i); reflexivity).
    rewrite (map_ext _ _ E). clear E IH Hf.
    assert (S : forall (f g : category -> nat) r,
      list_sum (map (fun c => f c + g c) r) = list_sum (map f r) + list_sum (map g r)).
    { intros f g r. induction r as [|c r IHr]; [reflexivity|]. unfold list_sum in *. cbn in *. lia. }
    rewrite S. f_equal. clear S.
    destruct (p i).
    + induction Hn as [|c reg Hc Hn IHn]; [destruct Hi|]. cbn [map list_sum fold_right].
      destruct (cat_matches (Some c) i) eqn:M; cbn [andb].
      * apply cat_matches_spec with (c := c) in M; [|reflexivity].
        assert (Z : list_sum (map (fun c0 => if cat_matches (Some c0) i && true then 1 else 0) reg) = 0).
        { clear -M Hc. induction reg as [|d reg IH]; [reflexivity|]. cbn.
          destruct (cat_eqb (it_cat i) d) eqn:E; cbn.
          - exfalso. apply Hc. left. change (cat_matches (Some d) i = true) in E.
            apply cat_matches_spec with (c := d) in E; [|reflexivity]. congruence.
          - apply IH. intros H. apply Hc. now right. }
        unfold list_sum in Z. rewrite Z. reflexivity.
      * destruct Hi as [Hi|Hi].
        -- exfalso. assert (cat_matches (Some c) i = true); [|congruence]. apply cat_matches_spec. congruence.
        -- cbn. now apply IHn.
    + clear. induction reg as [|c reg IH]; [reflexivity|]. cbn. rewrite andb_false_r. exact IH.
Qed.

Theorem C26_counts_add_up : forall C U tz s, reachable C U tz s ->
  (* over the published categories *)
  (forall trashed, count_items None trashed s =
     list_sum (map (fun c => count_items (Some (Cat (fst c) (snd c))) trashed s) published)) /\
  (* over trashed and not trashed *)
  exists items, (forall i, In i items <-> held s i) /\ NoDup (map it_uid items) /\
    count_items None false s + count_items None true s = length items.
Proof.
  intros C U tz s Hr. assert (Hi := reachable_inv C U tz s Hr). split.
  - intros tr. unfold count_items, count_by.
    rewrite (count_split registry) by (try apply (inv_cats _ Hi); apply (NoDup_map_inv cat_code), nodupb_ok; reflexivity).
    cbn [cat_matches]. 
    assert (P : Permutation registry (map (fun c => Cat (fst c) (snd c)) published)).
    { rewrite <- (Permutation_map (fun c => Cat (fst c) (snd c)) registry_perm_published), map_map.
      apply Permutation_refl'. reflexivity. }
    rewrite <- (map_map (fun c => Cat (fst c) (snd c))
      (fun c => length (filter (fun i => cat_eqb (it_cat i) c && Bool.eqb (it_trashed i) tr) (items_list (st_items s))))).
    assert (L : forall l l', Permutation l l' -> list_sum l = list_sum l')
      by (intros l l' H; unfold list_sum; induction H; cbn [fold_right]; lia).
    apply L. apply Permutation_map. exact P.
  - exists (items_list (st_items s)). split; [intros i; symmetry; apply (held_spec C U tz s Hr)|].
    split; [apply (inv_uids _ Hi)|]. unfold count_items, count_by.
    generalize (items_list (st_items s)) as l. induction l as [|i l IH]; [reflexivity|].
    cbn [filter cat_matches andb] in *. destruct (it_trashed i); cbn [Bool.eqb length] in *; lia.
Qed.
Print Assumptions C26_counts_add_up.

Example C26_example :
  exists s, reachable toy_crypto latin1 utc s /\ count_items None false s = 2 /\ count_items None true s = 1 /\
    count_items (Some (Cat (b "002") (b "Credit Card"))) false s = 1.
Proof.
  let v := eval vm_compute in (run toy_crypto latin1 utc (opening forwards demo_disk (b "/v") (b "freddy")) init) in
    match v with Ok (?s, _) => exists s end.
  split; [|repeat split].
  exists (opening forwards demo_disk (b "/v") (b "freddy")), [RError None; RError None].
  split; [repeat (apply Forall_cons; [exact forwards_ok|]); constructor|]. vm_compute. reflexivity.
Qed.

(** ** C27: lookup by uid is exact and order independent. *)
Theorem C27_lookup_exact : forall C U, crypto_ok C -> unicode_ok U ->
  forall tz O D path password ks items,
  oracles_ok O -> vault_at C U tz D path password ks items ->
  exists s, run C U tz (opening O D path password) init = Ok (s, [RError None; RError None]) /\
    forall uid trashed,
      (forall i, get_item uid trashed s = Some i <-> In i items /\ it_uid i = uid /\ it_trashed i = trashed).
Proof.
  intros C U HC HU tz O D path password ks items HO Hv.
  destruct (C16_items_decoded C U HC HU tz O D path password ks items HO Hv) as (s & R & F & G & _).
  exists s. split; [exact R|]. intros uid tr i. split; [apply G|]. intros (H & <- & <-). now apply F.
Qed.
Print Assumptions C27_lookup_exact.

Theorem C27_order_independent : forall C U tz O1 O2 D path password s1,
  oracles_ok O1 -> oracles_ok O2 ->
  run C U tz (opening O1 D path password) init = Ok (s1, [RError None; RError None]) ->
  exists s2, run C U tz (opening O2 D path password) init = Ok (s2, [RError None; RError None]) /\
    forall uid trashed, get_item uid trashed s1 = get_item uid trashed s2.
Proof.
  intros C U tz O1 O2 D path password s1 H1 H2 R.
  destruct (opening_orders C U tz O1 O2 D path password s1 H1 H2 R) as (s2 & R2 & P).
  exists s2. split; [exact R2|]. intros uid tr.
  assert (N1 := inv_uids _ (reachable_inv C U tz s1 (opening_reachable C U tz O1 D path password s1 _ H1 R))).
  assert (N2 := inv_uids _ (reachable_inv C U tz s2 (opening_reachable C U tz O2 D path password s2 _ H2 R2))).
  unfold get_item. destruct (find_first uid tr (st_items s1)) as [i|] eqn:E1.
  - symmetry. apply find_first_spec; [exact N2|]. apply find_first_spec in E1; [|exact N1].
    destruct E1 as (Hin & Hu & Ht). split; [apply (Permutation_in _ P Hin)|auto].
  - destruct (find_first uid tr (st_items s2)) as [i|] eqn:E2; [|reflexivity].
    apply find_first_spec in E2; [|exact N2]. destruct E2 as (Hin & Hu & Ht).
    assert (E : find_first uid tr (st_items s1) = Some i); [|congruence].
    apply find_first_spec; [exact N1|]. split; [apply (Permutation_in _ (Permutation_sym P) Hin)|auto].
Qed.
Print Assumptions C27_order_independent.

Example C27_example :
  vault_at toy_crypto latin1 utc demo_disk (b "/v") (b "freddy") demo_keys demo_items /\
  oracles_ok forwards /\ oracles_ok backwards /\ forwards <> backwards /\
  (exists i, In i demo_items /\ it_uid i = b "CC" /\ it_trashed i = true) /\
  ~ (exists i, In i demo_items /\ it_uid i = b "CC" /\ it_trashed i = false).
Proof.
  split; [exact demo_vault|]. split; [exact forwards_ok|]. split; [exact backwards_ok|]. split.
  - intros E. apply (f_equal (fun o => o_iter o [(b "a", JNull); (b "b", JNull)])) in E. discriminate.
  - split; [eexists; split; [right; left; reflexivity|]; split; reflexivity|].
    intros (i & H & H1 & H2). repeat (destruct H as [<-|H]; [discriminate|]). destruct H.
Qed.

(** ** C28: every listed row can be opened. *)
Theorem C28_listed_rows_open : forall C U tz O s cat t trashed row,
  oracles_ok O -> reachable C U tz s -> In row (get_items U O cat t trashed s) ->
  exists i, get_item (s_uid row) (s_trashed row) s = Some i /\ s_trashed row = trashed /\
    it_uid i = s_uid row /\ it_title i = s_title row /\ it_cat i = s_cat row /\ it_trashed i = s_trashed row.
Proof.
  intros C U tz O s cat t tr row HO Hr Hin. apply (C24_listing_exact C U tz O s cat t tr HO Hr) in Hin.
  destruct Hin as (i & Hh & (_ & Ht & _) & ->). exists i. cbn [row_of s_uid s_trashed s_title s_cat]. auto 10.
Qed.
Print Assumptions C28_listed_rows_open.

Example C28_example :
  exists s row, reachable toy_crypto latin1 utc s /\ In row (get_items latin1 forwards None (b "vi") false s).
Proof.
  let v := eval vm_compute in (run toy_crypto latin1 utc (opening forwards demo_disk (b "/v") (b "freddy")) init) in
    match v with Ok (?s, _) => exists s end.
  exists (MkSimple (Cat (b "002") (b "Credit Card")) (b "Visa") false (b "BB")). split; [|vm_compute; auto].
  exists (opening forwards demo_disk (b "/v") (b "freddy")), [RError None; RError None].
  split; [repeat (apply Forall_cons; [exact forwards_ok|]); constructor|]. vm_compute. reflexivity.
Qed.

(** ** C29: search is case-insensitive: texts that differ only in the case of their
    letters give the same listing, and the empty text matches everything. *)
Definition case_variant (U : unicode) (t t' : bytes) : Prop :=
  Forall2 (fun r r' => r = r' \/ rune_lower U r = r' \/ r = rune_lower U r' \/ rune_lower U r = rune_lower U r')
    (utf8_decode t) (utf8_decode t').

Theorem C29_case_insensitive : forall U O cat trashed s t t',
  unicode_ok U -> case_variant U t t' ->
  get_items U O cat t trashed s = get_items U O cat t' trashed s.
Proof.
  intros U O cat tr s t t' HU H.
  assert (E : to_lower U t = to_lower U t').
  { unfold to_lower, map_runes. f_equal. induction H as [|r r' l l' H Hl IH]; [reflexivity|].
    cbn [map]. f_equal; [|exact IH]. destruct H as [->|[<-|[->|H]]]; auto.
    - symmetry. now apply rune_lower_idem.
    - now apply rune_lower_idem. }
  unfold get_items, get_simple_items, find_by. now rewrite E.
Qed.
Print Assumptions C29_case_insensitive.

(** For ASCII texts without any assumption on the Unicode tables. *)
Theorem C29_case_insensitive_ascii : forall U O cat trashed s t t',
  is_ascii t' = true -> same_letters t t' ->
  get_items U O cat t trashed s = get_items U O cat t' trashed s.
Proof.
  intros U O cat tr s t t' Ha H. unfold get_items, get_simple_items, find_by.
  now rewrite (same_letters_lower U t t' Ha H).
Qed.
Print Assumptions C29_case_insensitive_ascii.

Theorem C29_empty_matches_all : forall C U tz O cat trashed s row,
  oracles_ok O -> reachable C U tz s ->
  (In row (get_items U O cat [] trashed s) <->
   exists i, held s i /\ (forall c, cat = Some c -> it_cat i = c) /\ it_trashed i = trashed /\ row = row_of i).
Proof.
  intros C U tz O cat tr s row HO Hr. rewrite (proj1 (C24_listing_exact C U tz O s cat [] tr HO Hr) row).
  split; intros (i & H1 & H2).
  - destruct H2 as ((Hc & Ht & _) & ->). exists i. auto.
  - destruct H2 as (Hc & Ht & ->). exists i. split; [exact H1|]. split; [|reflexivity].
    split; [exact Hc|]. split; [exact Ht|]. exists [], (to_lower U (it_title i)). reflexivity.
Qed.
Print Assumptions C29_empty_matches_all.

Example C29_example :
  case_variant latin1 (b "vISa") (b "ViSA") /\ same_letters (b "vISa") (b "ViSA") /\
  (* the letter A-umlaut, capital and small *)
  case_variant latin1 ["195"; "132"]%char ["195"; "164"]%char.
Proof.
  split; [|split].
  - unfold case_variant. change (utf8_decode (b "vISa")) with [118; 73; 83; 97]%N.
    change (utf8_decode (b "ViSA")) with [86; 105; 83; 65]%N.
    repeat (apply Forall2_cons; [vm_compute; auto|]). constructor.
  - apply Forall2_cons; [right; right; exists 21; split; reflexivity|].
    apply Forall2_cons; [right; left; exists 8; split; reflexivity|].
    apply Forall2_cons; [left; reflexivity|].
    apply Forall2_cons; [right; right; exists 0; split; reflexivity|]. constructor.
  - unfold case_variant. change (utf8_decode ["195"; "132"]%char) with [196]%N.
    change (utf8_decode ["195"; "164"]%char) with [228]%N.
    repeat (apply Forall2_cons; [vm_compute; auto|]). constructor.
Qed.
