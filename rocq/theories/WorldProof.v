(** Where paths lead, and what the calls of [World] do to the file system. *)
From Verif Require Import Base Utf8 GoStrings Path Fs FsProof World.

(** ** Paths lead to a place determined by their text *)

Fixpoint lexical (cur : loc) (es : list bytes) : loc :=
  match es with
  | [] => cur
  | e :: es' =>
      if bytes_eqb e [] || bytes_eqb e dot then lexical cur es'
      else if bytes_eqb e dotdot then lexical (tl cur) es'
      else lexical (e :: cur) es'
  end.

Definition place (cwd : loc) (path : bytes) : loc :=
  lexical (if rooted path then [] else cwd) (split_slash path).

Lemma lexical_app cur xs ys : lexical cur (xs ++ ys) = lexical (lexical cur xs) ys.
Proof.
  revert cur; induction xs as [|e xs IH]; intros cur; [reflexivity|]. cbn [app lexical].
  destruct (bytes_eqb e [] || bytes_eqb e dot); [apply IH|].
  destruct (bytes_eqb e dotdot); apply IH.
Qed.

Lemma lexical_normal cur e : normal e -> lexical cur [e] = e :: cur.
Proof.
  intros (H1 & H2 & H3). apply bytes_eqb_neq in H1, H2, H3. cbn [lexical].
  now rewrite H1, H2, H3.
Qed.

Lemma walk_lexical f es : forall cur l, walk f cur es = Some l -> l = lexical cur es.
Proof.
  induction es as [|e es IH]; intros cur l; cbn [walk lexical]; [congruence|].
  destruct (negb (is_dir f cur)); [discriminate|].
  destruct (bytes_eqb e [] || bytes_eqb e dot); [apply IH|].
  destruct (bytes_eqb e dotdot); [apply IH|].
  destruct (fs_get f (e :: cur)); [apply IH|discriminate].
Qed.

Lemma resolve_place D p l : resolve D p = Some l -> l = place (d_cwd D) p.
Proof. destruct p as [|c p]; [discriminate|]. apply walk_lexical. Qed.

Lemma split_path_spec p : forall d f, split_path p = (d, f) ->
  no_slash f /\ (d = [] /\ p = f \/ exists x, d = x ++ [slash] /\ p = x ++ slash :: f).
Proof.
  induction p as [|c p IH]; intros d f; cbn [split_path].
  - intros [= <- <-]. split; [intros []|now left].
  - destruct (split_path p) as [d' f'] eqn:E. destruct (IH _ _ eq_refl) as [Hf Hp].
    destruct d' as [|c' d'].
    + destruct Hp as [[_ ->]|[x [Hx _]]]; [|destruct x; discriminate].
      destruct (is_slash c) eqn:Hc.
      * intros [= <- <-]. split; [exact Hf|]. right. exists [].
        apply is_slash_true in Hc. subst c. auto.
      * intros [= <- <-]. split; [|now left].
        intros [->|H]; [|now apply Hf]. discriminate.
    + intros [= <- <-]. split; [exact Hf|]. right.
      destruct Hp as [[H _]|[x [Hx ->]]]; [discriminate|]. exists (c :: x). rewrite Hx. auto.
Qed.

Lemma resolve_new_place D p l : resolve_new D p = Some l -> l = place (d_cwd D) p.
Proof.
  unfold resolve_new. destruct (resolve D p) eqn:E.
  - intros [= <-]. now apply resolve_place.
  - destruct (split_path p) as [d f] eqn:Es. apply split_path_spec in Es. destruct Es as [Hf Hp].
    destruct (bytes_eqb f [] || bytes_eqb f dot || bytes_eqb f dotdot) eqn:En; [discriminate|].
    apply orb_false_iff in En. destruct En as [En E3]. apply orb_false_iff in En. destruct En as [E1 E2].
    assert (Hn : normal f) by (repeat split; now apply bytes_eqb_neq).
    destruct Hp as [[-> ->]|[x [-> ->]]].
    + destruct (is_dir (d_fs D) (d_cwd D)); [|discriminate]. intros [= <-].
      unfold place. rewrite split_slash_plain by exact Hf.
      assert (rooted f = false) as ->.
      { destruct f as [|c f]; [reflexivity|]. simpl. destruct (is_slash c) eqn:Hc; [|reflexivity].
        apply is_slash_true in Hc. subst. exfalso. apply Hf. now left. }
      now rewrite lexical_normal.
    + destruct (x ++ [slash]) as [|c y] eqn:Ex; [destruct x; discriminate|]. rewrite <- Ex.
      destruct (resolve D (x ++ [slash])) as [l'|] eqn:El; [|discriminate].
      destruct (is_dir (d_fs D) l'); [|discriminate]. intros [= <-].
      apply resolve_place in El. rewrite El. unfold place.
      assert (Hr : rooted (x ++ slash :: f) = rooted (x ++ [slash])) by (destruct x; reflexivity).
      rewrite Hr. rewrite !split_slash_app_slash, !lexical_app.
      rewrite (split_slash_plain f) by exact Hf. now rewrite lexical_normal.
Qed.

Lemma clean_lexical r start es : forall acc,
  (r = true -> start = []) ->
  Forall (fun e => e <> [] /\ e <> dot) acc ->
  (r = true -> Forall (fun e => e <> dotdot) acc) ->
  lexical start (clean_elems r acc es) = lexical (lexical start (rev acc)) es.
Proof.
  induction es as [|e es IH]; intros acc Hr Hacc Hdd; cbn [clean_elems lexical]; [reflexivity|].
  destruct (bytes_eqb e [] || bytes_eqb e dot) eqn:E1; [now apply IH|].
  apply orb_false_iff in E1. destruct E1 as [E1 E1'].
  destruct (bytes_eqb e dotdot) eqn:E2.
  - apply bytes_eqb_eq in E2. subst e. destruct acc as [|a acc].
    + cbn [rev lexical]. destruct r.
      * assert (Hs := Hr eq_refl). subst start. cbn [tl]. rewrite IH; auto.
      * rewrite IH; [reflexivity|auto| |discriminate]. repeat constructor; discriminate.
    + inversion Hacc as [|? ? [Ha1 Ha2] Hacc']; subst.
      destruct (bytes_eqb a dotdot) eqn:Ea.
      * rewrite IH; [|auto| |].
        -- cbn [rev]. rewrite !lexical_app. reflexivity.
        -- constructor; [split; discriminate|exact Hacc].
        -- intros Ht. specialize (Hdd Ht). inversion Hdd; subst.
           apply bytes_eqb_eq in Ea. congruence.
      * rewrite IH; [|auto|exact Hacc'|].
        -- cbn [rev]. rewrite lexical_app, (lexical_normal _ a); [reflexivity|].
           repeat split; auto. now apply bytes_eqb_neq.
        -- intros Ht. specialize (Hdd Ht). now inversion Hdd.
  - rewrite IH; [|auto| |].
    + cbn [rev]. rewrite lexical_app, (lexical_normal _ e); [reflexivity|].
      repeat split; now apply bytes_eqb_neq.
    + constructor; [|exact Hacc]. split; now apply bytes_eqb_neq.
    + intros Ht. constructor; [now apply bytes_eqb_neq|auto].
Qed.

Lemma place_clean cwd p : p <> [] -> place cwd (clean p) = place cwd p.
Proof.
  intros Hp. unfold clean. set (es := clean_elems (rooted p) [] (split_slash p)).
  assert (H : lexical (if rooted p then [] else cwd) es = place cwd p).
  { unfold es. rewrite clean_lexical; [reflexivity| |constructor|constructor]. now intros ->. }
  assert (Hes1 : Forall no_slash es) by (apply clean_elems_no_slash; [constructor|apply split_slash_no_slash]).
  assert (Hes2 : Forall (fun e => e <> [] /\ e <> dot) es) by (apply clean_elems_named; constructor).
  clearbody es. rewrite <- H. clear H. unfold place. destruct (rooted p) eqn:Er.
  - cbn [rooted]. change (is_slash slash) with true. cbn iota.
    cbn [split_slash]. change (is_slash slash) with true. cbn iota.
    destruct es as [|e es]; [reflexivity|]. rewrite split_join; [reflexivity|discriminate|exact Hes1].
  - destruct es as [|e es]; [reflexivity|]. rewrite split_join by (auto; discriminate).
    rewrite join_slash_rooted; [reflexivity|exact Hes1|].
    intros x [= <-]. now inversion Hes2.
Qed.

Lemma place_join cwd p n : p <> [] -> place cwd (join_path [p; n]) = lexical (place cwd p) (split_slash n).
Proof.
  intros Hp. rewrite join_path_cons by exact Hp. rewrite place_clean.
  - cbn [join_slash]. unfold place. rewrite rooted_app by exact Hp.
    now rewrite split_slash_app_slash, lexical_app.
  - destruct p; [congruence|]. discriminate.
Qed.

(** ** Being below a place *)

Lemma below_spec l k : below l k = true <-> exists x, k = x ++ l.
Proof.
  unfold below. rewrite loc_eqb_eq. split.
  - intros H. exists (firstn (length k - length l) k).
    transitivity (firstn (length k - length l) k ++ skipn (length k - length l) k); [symmetry; apply firstn_skipn|].
    now rewrite H.
  - intros [x ->]. apply skipn_app_exact. rewrite app_length. lia.
Qed.

Lemma below_refl l : below l l = true.
Proof. apply below_spec. exists []. reflexivity. Qed.

Lemma below_cons l e k : below l k = true -> below l (e :: k) = true.
Proof. rewrite !below_spec. intros [x ->]. now exists (e :: x). Qed.

Lemma lexical_below base es : forall cur,
  ~ In dotdot es -> below base cur = true -> below base (lexical cur es) = true.
Proof.
  induction es as [|e es IH]; intros cur Hd Hb; cbn [lexical]; [exact Hb|].
  assert (Hd' : ~ In dotdot es) by (intros H; apply Hd; now right).
  destruct (bytes_eqb e [] || bytes_eqb e dot); [now apply IH|].
  destruct (bytes_eqb e dotdot) eqn:E.
  - apply bytes_eqb_eq in E. exfalso. apply Hd. now left.
  - apply IH; [exact Hd'|]. now apply below_cons.
Qed.

(** ** Growing file systems *)

(** Every directory stays one and everything that exists still does. *)
Definition grows (f f' : fs) : Prop :=
  (forall l, is_dir f l = true -> is_dir f' l = true) /\
  (forall l, fs_get f l <> None -> fs_get f' l <> None).

Lemma grows_refl f : grows f f.
Proof. split; auto. Qed.

Lemma grows_trans f g h : grows f g -> grows g h -> grows f h.
Proof. intros [H1 H2] [H3 H4]. split; auto. Qed.

Lemma walk_grows f f' es : grows f f' -> forall cur l, walk f cur es = Some l -> walk f' cur es = Some l.
Proof.
  intros [Hd He]. induction es as [|e es IH]; intros cur l; cbn [walk]; [auto|].
  destruct (is_dir f cur) eqn:Ed; cbn [negb]; [|discriminate]. rewrite (Hd _ Ed). cbn [negb].
  destruct (bytes_eqb e [] || bytes_eqb e dot); [apply IH|].
  destruct (bytes_eqb e dotdot); [apply IH|].
  destruct (fs_get f (e :: cur)) eqn:E; [|discriminate].
  destruct (fs_get f' (e :: cur)) eqn:E'; [apply IH|].
  exfalso. apply (He (e :: cur)); [congruence|exact E'].
Qed.

Lemma resolve_grows f f' cwd u p l :
  grows f f' -> resolve (MkDisk f cwd u) p = Some l -> resolve (MkDisk f' cwd u) p = Some l.
Proof. intros H. destruct p; [discriminate|]. now apply walk_grows. Qed.

Lemma is_dir_cons_nonroot f l : is_dir f l = false -> l <> [].
Proof. destruct l; [discriminate|congruence]. Qed.

Lemma grows_set_file f l c m : is_dir f l = false -> grows f (fs_set l (NFile c m) f).
Proof.
  intros H. assert (Hl := is_dir_cons_nonroot _ _ H). split; intros k Hk.
  - destruct k as [|e k]; [reflexivity|]. unfold is_dir in *. rewrite fs_get_set by discriminate.
    destruct (loc_eqb (e :: k) l) eqn:E; [|exact Hk]. apply loc_eqb_eq in E. subst l. congruence.
  - destruct k as [|e k]; [discriminate|]. rewrite fs_get_set by discriminate.
    destruct (loc_eqb (e :: k) l); [discriminate|exact Hk].
Qed.

Lemma fs_get_set_same f l n : l <> [] -> fs_get (fs_set l n f) l = Some n.
Proof. intros H. rewrite fs_get_set by exact H. now rewrite loc_eqb_refl. Qed.

Lemma fs_get_set_other f l n k : k <> l -> fs_get (fs_set l n f) k = fs_get f k.
Proof.
  intros H. destruct k as [|e k]; [reflexivity|]. rewrite fs_get_set by discriminate.
  apply loc_eqb_neq in H. now rewrite H.
Qed.

Lemma fs_get_del_other f l k : k <> l -> fs_get (fs_del l f) k = fs_get f k.
Proof.
  intros H. destruct k as [|e k]; [reflexivity|]. rewrite fs_get_del by discriminate.
  apply loc_eqb_neq in H. now rewrite H.
Qed.

Lemma fs_get_del_same f l : l <> [] -> fs_get (fs_del l f) l = None.
Proof. intros H. rewrite fs_get_del by exact H. now rewrite loc_eqb_refl. Qed.

(** After creating the file, its path leads to it. *)
Lemma resolve_new_grows f f' cwd u p l :
  resolve_new (MkDisk f cwd u) p = Some l -> grows f f' -> fs_get f' l <> None ->
  resolve (MkDisk f' cwd u) p = Some l.
Proof.
  unfold resolve_new. intros H Hg Hl. destruct (resolve (MkDisk f cwd u) p) eqn:E.
  - injection H as <-. now apply (resolve_grows f).
  - destruct (split_path p) as [d n] eqn:Es. apply split_path_spec in Es. destruct Es as [Hf Hp].
    destruct (bytes_eqb n [] || bytes_eqb n dot || bytes_eqb n dotdot) eqn:En; [discriminate|].
    apply orb_false_iff in En. destruct En as [En E3]. apply orb_false_iff in En. destruct En as [E1 E2].
    assert (Hn : normal n) by (repeat split; now apply bytes_eqb_neq).
    cbn [d_cwd d_fs] in H.
    destruct Hp as [[-> ->]|[x [-> ->]]].
    + destruct (is_dir f cwd) eqn:Ed; [|discriminate]. injection H as <-.
      rewrite resolve_walk by (destruct n; [discriminate|congruence]).
      unfold start_of. cbn [d_fs d_cwd].
      assert (rooted n = false) as ->.
      { destruct n as [|c n]; [reflexivity|]. simpl. destruct (is_slash c) eqn:Hc; [|reflexivity].
        apply is_slash_true in Hc. subst. exfalso. apply Hf. now left. }
      rewrite split_slash_plain by exact Hf. rewrite walk_normal by exact Hn.
      destruct Hg as [Hg _]. rewrite (Hg _ Ed). destruct (fs_get f' (n :: cwd)) eqn:Ex; [reflexivity|]. now elim Hl.
    + destruct (x ++ [slash]) as [|c y] eqn:Ex; [destruct x; discriminate|]. rewrite <- Ex in H.
      destruct (resolve (MkDisk f cwd u) (x ++ [slash])) as [l'|] eqn:El; [|discriminate].
      destruct (is_dir f l') eqn:Ed; [|discriminate]. injection H as <-.
      apply (resolve_grows f f') in El; [|exact Hg].
      rewrite resolve_walk in El by (destruct x; discriminate).
      rewrite resolve_walk by (destruct x; discriminate).
      unfold start_of in *. cbn [d_fs d_cwd] in *.
      assert (Hr : rooted (x ++ slash :: n) = rooted (x ++ [slash])) by (destruct x; reflexivity).
      rewrite Hr. rewrite split_slash_app_slash in *. rewrite walk_app in *.
      destruct (walk f' (if rooted (x ++ [slash]) then [] else cwd) (split_slash x)) as [l2|]; [|discriminate].
      cbn [split_slash walk] in El. destruct (is_dir f' l2) eqn:Ed2; cbn [negb] in El; [|discriminate].
      cbn in El. injection El as <-.
      rewrite split_slash_plain by exact Hf. rewrite walk_normal by exact Hn. rewrite Ed2.
      destruct (fs_get f' (n :: l2)) eqn:Ey; [reflexivity|]. now elim Hl.
Qed.

(** ** Invariants of running code *)

Definition env (w : world) := (d_cwd (w_disk w), d_unreadable (w_disk w), w_umask w, w_exe w).

(** Every file system the trace went through. *)
Definition moments (w : world) : list fs :=
  flat_map (fun e => match e with EFs f => [f] | _ => [] end) (w_trace w).

Definition states (t : list ev) : list fs :=
  flat_map (fun e => match e with EFs f => [f] | _ => [] end) t.

(** Since the trace was [B], the surroundings are [E] and every file system satisfies [I]. *)
Definition since (B : list ev) (E : _) (I : fs -> Prop) (w : world) : Prop :=
  env w = E /\ I (w_fs w) /\ exists t, w_trace w = t ++ B /\ Forall I (states t).

Notation always := (since []).

Lemma always_moments E I w : always E I w <-> env w = E /\ I (w_fs w) /\ Forall I (moments w).
Proof.
  unfold since, moments. split.
  - intros (H1 & H2 & t & Ht & H3). rewrite app_nil_r in Ht. subst t. auto.
  - intros (H1 & H2 & H3). repeat split; auto. exists (w_trace w). rewrite app_nil_r. auto.
Qed.

Lemma since_start E (I : fs -> Prop) w : env w = E -> I (w_fs w) -> since (w_trace w) E I w.
Proof. intros H1 H2. repeat split; auto. exists []. split; [reflexivity|constructor]. Qed.

Lemma since_weaken B E (I I' : fs -> Prop) w : (forall f, I f -> I' f) -> since B E I w -> since B E I' w.
Proof.
  intros H (H1 & H2 & t & Ht & H3). repeat split; auto. exists t. split; [exact Ht|].
  eapply Forall_impl; [exact H|exact H3].
Qed.

Definition keeps {A} (J : world -> Prop) (m : io A) : Prop := forall w, J w -> J (fst (m w)).

Lemma keeps_ret {A} J (x : A) : keeps J (ret x).
Proof. intros w H. exact H. Qed.

Lemma keeps_lift {A} J (x : res A) : keeps J (lift x).
Proof. intros w H. exact H. Qed.

Lemma keeps_bind {A B} J (m : io A) (k : A -> io B) :
  keeps J m -> (forall x, keeps J (k x)) -> keeps J (bind m k).
Proof.
  intros Hm Hk w H. unfold bind. specialize (Hm w H). destruct (m w) as [w1 [x| |n]]; cbn [fst] in *; auto.
  now apply Hk.
Qed.

(** Knowing the result of the first part. *)
Lemma keeps_bind_res {A B} J (m : io A) (k : A -> io B) :
  keeps J m -> (forall x w w', J w -> m w = (w', Ok x) -> J w' -> J (fst (k x w'))) -> keeps J (bind m k).
Proof.
  intros Hm Hk w H. unfold bind. assert (Hw := Hm w H).
  destruct (m w) as [w1 [x| |n]] eqn:E; cbn [fst] in *; auto. now apply (Hk x w w1).
Qed.

Lemma insert_deep_in l ls k : In k (insert_deep l ls) <-> k = l \/ In k ls.
Proof.
  induction ls as [|x ls IH]; cbn [insert_deep]; [simpl; intuition|].
  destruct (length l <? length x); simpl; rewrite ?IH; intuition.
Qed.

Lemma subtree_in f l k : In k (subtree f l) <-> In k (map fst f) /\ below l k = true.
Proof.
  unfold subtree. rewrite <- filter_In. induction (filter (below l) (map fst f)) as [|x xs IH]; [reflexivity|].
  cbn [fold_right]. rewrite insert_deep_in, IH. simpl. intuition.
Qed.

Section Always.
Variable B : list ev.
Variable E : loc * (loc -> bool) * N * option bytes.
Variable I : fs -> Prop.
Notation J := (since B E I).

Lemma always_event e w : (match e with EFs f => False | _ => True end) -> J w -> J (add_event e w).
Proof.
  intros He (H1 & H2 & t & Ht & H3). repeat split; [exact H1|exact H2|].
  exists (e :: t). cbn. rewrite Ht. split; [reflexivity|]. destruct e; try contradiction; exact H3.
Qed.

Lemma always_put f w : J w -> I f -> J (put_fs f w).
Proof.
  intros (H1 & H2 & t & Ht & H3) Hf. repeat split; [exact H1|exact Hf|].
  exists (EFs f :: t). cbn. rewrite Ht. split; [reflexivity|constructor; assumption].
Qed.

Lemma keeps_change g : (forall f, I f -> I (g f)) -> keeps J (change g).
Proof.
  intros Hg w H. assert (H' := H). destruct H' as (H1 & H2 & H3).
  unfold change. destruct (w_faults w) as [|[n|] fl]; cbn [fst].
  - apply always_put; auto.
  - exact H.
  - apply always_put; auto.
Qed.

(** Writing to the file at [l] keeps the invariant. *)
Definition may_write (l : loc) : Prop :=
  forall f c m c', I f -> fs_get f l = Some (NFile c m) -> I (fs_set l (NFile c' m) f).

Lemma always_append l data : may_write l -> forall w, J w -> J (append_bytes l data w).
Proof.
  intros Hl. induction data as [|c data IH]; intros w H; cbn [append_bytes]; [exact H|].
  apply IH. destruct (fs_get (w_fs w) l) as [[old m|]|] eqn:Eg; try exact H.
  apply always_put; [exact H|]. destruct H as (_ & H2 & _). now apply (Hl _ old).
Qed.

Lemma keeps_write l data : may_write l -> keeps J (write_bytes l data).
Proof.
  intros Hl w H. unfold write_bytes. destruct (w_faults w) as [|[n|] fl]; cbn [fst];
    now apply always_append.
Qed.

Definition may_create (l : loc) (mode : N) : Prop :=
  forall f, I f -> fs_get f l = None -> I (fs_set l (NFile [] mode) f).

Lemma keeps_open_trunc p perm :
  may_write (place (fst (fst (fst E))) p) ->
  may_create (place (fst (fst (fst E))) p) (N.ldiff perm (snd (fst E))) ->
  keeps J (open_trunc p perm).
Proof.
  intros Hw Hc w H. unfold open_trunc. destruct (resolve_new (w_disk w) p) as [l|] eqn:Er; [|exact H].
  apply resolve_new_place in Er. assert (He := proj1 H). rewrite <- He in Hw, Hc.
  cbn [env fst snd] in Hw, Hc. rewrite <- Er in Hw, Hc. clear Er.
  assert (G : forall mode, (forall c m, fs_get (w_fs w) l = Some (NFile c m) -> mode = m) ->
            (fs_get (w_fs w) l = None -> mode = N.ldiff perm (w_umask w)) ->
            fs_get (w_fs w) l <> Some NDir ->
            J (fst (bind (change (fs_set l (NFile [] mode)))
                         (fun ok => ret (if ok then Some l else None)) w))).
  { intros mode Hm1 Hm2 Hd.
    assert (Hi : I (fs_set l (NFile [] mode) (w_fs w))).
    { destruct (fs_get (w_fs w) l) as [[c m|]|] eqn:Eg; [|congruence|].
      - rewrite (Hm1 c m eq_refl). apply (Hw _ c); [apply H|exact Eg].
      - rewrite (Hm2 eq_refl). apply Hc; [apply H|exact Eg]. }
    unfold bind, change. destruct (w_faults w) as [|[n|] fl]; cbn [fst ret].
    - now apply always_put.
    - exact H.
    - now apply always_put. }
  destruct (fs_get (w_fs w) l) as [[c m|]|] eqn:Eg; [|exact H|].
  - apply G; congruence.
  - apply G; congruence.
Qed.

Lemma open_trunc_place p perm w w' l :
  open_trunc p perm w = (w', Ok (Some l)) -> l = place (d_cwd (w_disk w)) p.
Proof.
  unfold open_trunc. destruct (resolve_new (w_disk w) p) as [l'|] eqn:Er; [|discriminate].
  apply resolve_new_place in Er. rewrite <- Er.
  destruct (fs_get (w_fs w) l') as [[c m|]|]; try discriminate;
    unfold bind, change, ret; destruct (w_faults w) as [|[n|] fl]; congruence.
Qed.

Lemma keeps_write_file p data perm :
  may_write (place (fst (fst (fst E))) p) ->
  may_create (place (fst (fst (fst E))) p) (N.ldiff perm (snd (fst E))) ->
  keeps J (write_file p data perm).
Proof.
  intros Hw Hc. apply keeps_bind_res; [now apply keeps_open_trunc|].
  intros [l|] w w' H Ho H'; [|exact H']. apply open_trunc_place in Ho. subst l.
  apply keeps_write; [|exact H']. now rewrite <- (proj1 H) in Hw.
Qed.

Lemma keeps_make_dirs ls :
  (forall l f, In l ls -> I f -> fs_get f l = None -> I (fs_set l NDir f)) -> keeps J (make_dirs ls).
Proof.
  induction ls as [|l ls IH]; intros H; cbn [make_dirs]; [apply keeps_ret|].
  apply keeps_bind.
  - apply keeps_change. intros f Hf. unfold add_dir. destruct (fs_get f l) eqn:Eg; [exact Hf|]. apply H; auto. now left.
  - intros [|]; [|apply keeps_ret]. apply IH. intros k f Hk. apply H. now right.
Qed.

Lemma keeps_unlink ls :
  (forall l f, In l ls -> I f -> I (fs_del l f)) -> keeps J (unlink_all ls).
Proof.
  induction ls as [|l ls IH]; intros H; cbn [unlink_all]; [apply keeps_ret|].
  apply keeps_bind; [apply keeps_change; intros f; apply H; now left|].
  intros [|]; [|apply keeps_ret]. apply IH. intros k f Hk. apply H. now right.
Qed.

Lemma keeps_remove_all p :
  (forall k f, below (place (fst (fst (fst E))) p) k = true -> I f -> I (fs_del k f)) ->
  keeps J (remove_all p).
Proof.
  intros H w Hw. unfold remove_all. destruct (resolve (w_disk w) p) as [l|] eqn:Er; [|exact Hw].
  apply resolve_place in Er. apply keeps_unlink; [|exact Hw].
  intros k f Hk. apply subtree_in in Hk. destruct Hk as [_ Hk]. apply H.
  rewrite <- (proj1 Hw). cbn [env fst]. now rewrite <- Er.
Qed.

(** Directories on the way to [es]. *)
Lemma chain_in es : forall cur ls l, chain cur es = Some ls -> In l ls ->
  exists xs ys, es = xs ++ ys /\ l = lexical cur xs.
Proof.
  induction es as [|e es IH]; intros cur ls l; cbn [chain].
  - intros [= <-] [].
  - destruct (bytes_eqb e [] || bytes_eqb e dot) eqn:E1.
    + intros H Hl. destruct (IH _ _ _ H Hl) as (xs & ys & -> & ->). exists (e :: xs), ys.
      split; [reflexivity|]. cbn [lexical]. now rewrite E1.
    + destruct (bytes_eqb e dotdot) eqn:E2; [discriminate|].
      destruct (chain (e :: cur) es) as [ls'|] eqn:Ec; [|discriminate].
      intros [= <-] [<-|Hl].
      * exists [e], es. split; [reflexivity|]. cbn [lexical]. now rewrite E1, E2.
      * destruct (IH _ _ _ Ec Hl) as (xs & ys & -> & ->). exists (e :: xs), ys.
        split; [reflexivity|]. cbn [lexical]. now rewrite E1, E2.
Qed.

Lemma missing_in f es : forall cur ls l, missing_dirs f cur es = Some ls -> In l ls ->
  exists xs ys, es = xs ++ ys /\ l = lexical cur xs.
Proof.
  induction es as [|e es IH]; intros cur ls l; cbn [missing_dirs].
  - destruct (is_dir f cur); [|discriminate]. intros [= <-] [].
  - destruct (bytes_eqb e [] || bytes_eqb e dot) eqn:E1.
    + intros H Hl. destruct (IH _ _ _ H Hl) as (xs & ys & -> & ->). exists (e :: xs), ys.
      split; [reflexivity|]. cbn [lexical]. now rewrite E1.
    + destruct (bytes_eqb e dotdot) eqn:E2.
      * intros H Hl. destruct (IH _ _ _ H Hl) as (xs & ys & -> & ->). exists (e :: xs), ys.
        split; [reflexivity|]. cbn [lexical]. now rewrite E1, E2.
      * destruct (fs_get f (e :: cur)) as [[c m|]|] eqn:Eg; [discriminate| |].
        -- intros H Hl. destruct (IH _ _ _ H Hl) as (xs & ys & -> & ->). exists (e :: xs), ys.
           split; [reflexivity|]. cbn [lexical]. now rewrite E1, E2.
        -- intros H Hl. eapply chain_in; eauto.
Qed.

Lemma keeps_stat p : keeps J (io_stat p).
Proof. intros w H. exact H. Qed.
Lemma keeps_read p : keeps J (io_read p).
Proof. intros w H. exact H. Qed.
Lemma keeps_executable : keeps J executable.
Proof. intros w H. exact H. Qed.
Lemma keeps_now : keeps J now.
Proof. intros w H. unfold now. destruct (w_clock w); exact H. Qed.
Lemma keeps_http u : keeps J (http_get u).
Proof.
  intros w H. unfold http_get. destruct u as [|c u]; [exact H|].
  apply (always_event (EGet (c :: u))) in H; [|exact Logic.I].
  destruct (w_net w); exact H.
Qed.
Lemma keeps_print t : keeps J (print t).
Proof. intros w H. now apply always_event. Qed.
Lemma keeps_scan : keeps J scan.
Proof. intros w H. unfold scan. destruct (scanln (w_stdin w)). exact H. Qed.
Lemma keeps_ask : keeps J ask_password.
Proof.
  intros w H. unfold ask_password. apply (always_event EAsk) in H; [|exact Logic.I].
  destruct (w_pass w); exact H.
Qed.

End Always.

(** ** Results *)

Lemma bind_ok {S A B} (m : st S A) (k : A -> st S B) s s' y :
  bind m k s = (s', Ok y) -> exists s1 x, m s = (s1, Ok x) /\ k x s1 = (s', Ok y).
Proof.
  unfold bind. destruct (m s) as [s1 [x| |n]]; try discriminate. intros H. exists s1, x. auto.
Qed.

Lemma change_ok g w w' : change g w = (w', Ok true) -> w_fs w' = g (w_fs w) /\ env w' = env w.
Proof.
  unfold change. destruct (w_faults w) as [|[n|] fl]; intros [= <-]; split; reflexivity.
Qed.

Lemma open_trunc_ok p perm w w' l :
  open_trunc p perm w = (w', Ok (Some l)) ->
  exists mode, resolve_new (w_disk w) p = Some l /\ is_dir (w_fs w) l = false /\
    w_fs w' = fs_set l (NFile [] mode) (w_fs w) /\ env w' = env w /\
    mode = match fs_get (w_fs w) l with Some (NFile _ m) => m | _ => N.ldiff perm (w_umask w) end.
Proof.
  unfold open_trunc. destruct (resolve_new (w_disk w) p) as [l'|] eqn:Er; [|discriminate].
  destruct (fs_get (w_fs w) l') as [[c m|]|] eqn:Eg; try discriminate; intros H;
    apply bind_ok in H; destruct H as (w1 & ok & Hc & Hr); unfold ret in Hr;
    injection Hr as -> Hl; destruct ok; try discriminate; injection Hl as ->;
    apply change_ok in Hc; destruct Hc as [Hf He]; eexists;
    (split; [reflexivity|]); (split; [unfold is_dir; now rewrite Eg|]);
    (split; [exact Hf|]); (split; [exact He|]); now rewrite Eg.
Qed.

Lemma append_bytes_spec l data : l <> [] -> forall w old m,
  fs_get (w_fs w) l = Some (NFile old m) ->
  fs_get (w_fs (append_bytes l data w)) l = Some (NFile (old ++ data) m) /\
  (forall k, k <> l -> fs_get (w_fs (append_bytes l data w)) k = fs_get (w_fs w) k) /\
  env (append_bytes l data w) = env w.
Proof.
  intros Hl. induction data as [|c data IH]; intros w old m H; cbn [append_bytes].
  - rewrite app_nil_r. auto.
  - rewrite H.
    destruct (IH (put_fs (fs_set l (NFile (old ++ [c]) m) (w_fs w)) w) (old ++ [c]) m) as (H1 & H2 & H3).
    + cbn. now apply fs_get_set_same.
    + rewrite <- app_assoc in H1. split; [exact H1|]. split.
      * intros k Hk. rewrite H2 by exact Hk. cbn. now apply fs_get_set_other.
      * rewrite H3. reflexivity.
Qed.

Lemma write_bytes_ok l data w w' old m :
  l <> [] -> fs_get (w_fs w) l = Some (NFile old m) -> write_bytes l data w = (w', Ok true) ->
  fs_get (w_fs w') l = Some (NFile (old ++ data) m) /\
  (forall k, k <> l -> fs_get (w_fs w') k = fs_get (w_fs w) k) /\ env w' = env w.
Proof.
  intros Hl Hg. unfold write_bytes. destruct (w_faults w) as [|[n|] fl]; intros [= <-].
  - now apply append_bytes_spec.
  - exact (append_bytes_spec l data Hl (set_faults fl w) old m Hg).
Qed.

(** A file that was created and written in full. *)
Definition saved (p data : bytes) (perm : N) (w w' : world) : Prop :=
  exists l, resolve_new (w_disk w) p = Some l /\ l <> [] /\ is_dir (w_fs w) l = false /\
    resolve (w_disk w') p = Some l /\
    fs_get (w_fs w') l = Some (NFile data
      (match fs_get (w_fs w) l with Some (NFile _ m) => m | _ => N.ldiff perm (w_umask w) end)) /\
    (forall k, k <> l -> fs_get (w_fs w') k = fs_get (w_fs w) k) /\ env w' = env w.

Lemma disk_eta (w : world) :
  w_disk w = MkDisk (w_fs w) (d_cwd (w_disk w)) (d_unreadable (w_disk w)).
Proof. unfold w_fs. now destruct (w_disk w). Qed.

Lemma env_disk w w' : env w' = env w ->
  w_disk w' = MkDisk (w_fs w') (d_cwd (w_disk w)) (d_unreadable (w_disk w)) /\ w_umask w' = w_umask w /\ w_exe w' = w_exe w.
Proof.
  unfold env. intros [= H1 H2 H3 H4]. rewrite disk_eta, H1, H2. auto.
Qed.

Lemma written p data perm w w1 w' l :
  open_trunc p perm w = (w1, Ok (Some l)) -> write_bytes l data w1 = (w', Ok true) -> saved p data perm w w'.
Proof.
  intros Ho Hw. apply open_trunc_ok in Ho. destruct Ho as (mode & Hr & Hd & Hf & He & Hm).
  assert (Hl := is_dir_cons_nonroot _ _ Hd).
  destruct (write_bytes_ok l data w1 w' [] mode) as (H1 & H2 & H3); [exact Hl| |exact Hw|].
  { rewrite Hf. now apply fs_get_set_same. }
  exists l. split; [exact Hr|]. split; [exact Hl|]. split; [exact Hd|].
  assert (Ho : forall k, k <> l -> fs_get (w_fs w') k = fs_get (w_fs w) k).
  { intros k Hk. rewrite H2 by exact Hk. rewrite Hf. now apply fs_get_set_other. }
  assert (Hee : env w' = env w) by congruence.
  repeat split; auto.
  - rewrite (proj1 (env_disk _ _ Hee)). rewrite disk_eta in Hr.
    apply (resolve_new_grows (w_fs w)); [exact Hr| |congruence].
    split; intros k Hk.
    + unfold is_dir in *. destruct (loc_eqb k l) eqn:E.
      * apply loc_eqb_eq in E. subst k. congruence.
      * apply loc_eqb_neq in E. now rewrite Ho.
    + destruct (loc_eqb k l) eqn:E.
      * apply loc_eqb_eq in E. subst k. congruence.
      * apply loc_eqb_neq in E. now rewrite Ho.
  - rewrite H1. cbn [app]. now rewrite Hm.
Qed.

Lemma write_file_ok p data perm w w' : write_file p data perm w = (w', Ok true) -> saved p data perm w w'.
Proof.
  intros H. apply bind_ok in H. destruct H as (w1 & o & Ho & Hw). destruct o as [l|]; [|discriminate].
  now apply (written p data perm w w1 w' l).
Qed.

Lemma saved_read p data perm w w' s : saved p data perm w w' -> read_file (w_disk w') p = Some s -> s = data.
Proof.
  intros (l & _ & _ & _ & Hr & Hg & _). unfold read_file. rewrite Hr. unfold w_fs in Hg. rewrite Hg.
  destruct (d_unreadable (w_disk w') l); congruence.
Qed.

Lemma saved_readable p data perm w w' :
  saved p data perm w w' -> d_unreadable (w_disk w) (place (d_cwd (w_disk w)) p) = false ->
  read_file (w_disk w') p = Some data.
Proof.
  intros (l & Hn & _ & _ & Hr & Hg & _ & He) Hu. apply resolve_new_place in Hn. subst l.
  unfold read_file. rewrite Hr. unfold w_fs in Hg. rewrite Hg.
  destruct (env_disk _ _ He) as (Hd & _ & _). rewrite Hd. cbn [d_unreadable]. now rewrite Hu.
Qed.

(** Nothing goes wrong when there are no faults. *)
Lemma change_fine g w : w_faults w = [] ->
  exists w', change g w = (w', Ok true) /\ w_faults w' = [].
Proof. intros H. unfold change. rewrite H. eexists. split; reflexivity || exact H. Qed.

Lemma append_faults l data : forall w, w_faults (append_bytes l data w) = w_faults w.
Proof.
  induction data as [|c data IH]; intros w; cbn [append_bytes]; [reflexivity|]. rewrite IH.
  destruct (fs_get (w_fs w) l) as [[old m|]|]; reflexivity.
Qed.

Lemma open_trunc_fine p perm w l :
  w_faults w = [] -> resolve_new (w_disk w) p = Some l -> is_dir (w_fs w) l = false ->
  exists w', open_trunc p perm w = (w', Ok (Some l)) /\ w_faults w' = [].
Proof.
  intros Hf Hr Hd. unfold open_trunc. rewrite Hr. unfold is_dir in Hd.
  destruct (fs_get (w_fs w) l) as [[c m|]|] eqn:Eg; [|discriminate|]; unfold bind, change, ret;
    rewrite Hf; eexists; (split; [reflexivity|exact Hf]).
Qed.

Lemma write_file_fine p data perm w l :
  w_faults w = [] -> resolve_new (w_disk w) p = Some l -> is_dir (w_fs w) l = false ->
  exists w', write_file p data perm w = (w', Ok true) /\ w_faults w' = [].
Proof.
  intros Hf Hr Hd. destruct (open_trunc_fine p perm w l Hf Hr Hd) as (w1 & Ho & Hf1).
  unfold write_file, bind. rewrite Ho. unfold write_bytes. rewrite Hf1. eexists. split; [reflexivity|].
  now rewrite append_faults.
Qed.

(** ** Operations that read neither the terminal nor a password *)

Definition quiet {A} (m : io A) : Prop := forall w,
  w_stdin (fst (m w)) = w_stdin w /\ w_pass (fst (m w)) = w_pass w.

Lemma quiet_ret {A} (x : A) : quiet (ret x).
Proof. intros w; split; reflexivity. Qed.
Lemma quiet_lift {A} (x : res A) : quiet (lift x).
Proof. intros w; split; reflexivity. Qed.
Lemma quiet_bind {A B} (m : io A) (k : A -> io B) : quiet m -> (forall x, quiet (k x)) -> quiet (bind m k).
Proof.
  intros Hm Hk w. unfold bind. destruct (Hm w) as [H1 H2].
  destruct (m w) as [w1 [x| |n]]; cbn [fst] in *; auto.
  destruct (Hk x w1) as [H3 H4]. split; congruence.
Qed.
Lemma quiet_change g : quiet (change g).
Proof. intros w. unfold change. destruct (w_faults w) as [|[n|] fl]; split; reflexivity. Qed.
Lemma append_quiet l data : forall w,
  w_stdin (append_bytes l data w) = w_stdin w /\ w_pass (append_bytes l data w) = w_pass w.
Proof.
  induction data as [|c data IH]; intros w; cbn [append_bytes]; [auto|].
  destruct (fs_get (w_fs w) l) as [[old m|]|]; try apply IH.
  destruct (IH (put_fs (fs_set l (NFile (old ++ [c]) m) (w_fs w)) w)) as [H1 H2].
  split; [rewrite H1|rewrite H2]; reflexivity.
Qed.
Lemma quiet_write l data : quiet (write_bytes l data).
Proof.
  intros w. unfold write_bytes. destruct (w_faults w) as [|[n|] fl]; cbn [fst]; [apply append_quiet| |].
  - exact (append_quiet l (firstn n data) (set_faults fl w)).
  - exact (append_quiet l data (set_faults fl w)).
Qed.
Lemma quiet_open_trunc p perm : quiet (open_trunc p perm).
Proof.
  intros w. unfold open_trunc. destruct (resolve_new (w_disk w) p) as [l|]; [|auto].
  destruct (fs_get (w_fs w) l) as [[c m|]|]; auto;
    refine (quiet_bind _ _ (quiet_change _) (fun ok => quiet_ret _) w).
Qed.
Lemma quiet_write_file p data perm : quiet (write_file p data perm).
Proof. apply quiet_bind; [apply quiet_open_trunc|]. intros [l|]; [apply quiet_write|apply quiet_ret]. Qed.
Lemma quiet_make_dirs ls : quiet (make_dirs ls).
Proof.
  induction ls as [|l ls IH]; cbn [make_dirs]; [apply quiet_ret|].
  apply quiet_bind; [apply quiet_change|]. intros [|]; [exact IH|apply quiet_ret].
Qed.
Lemma quiet_mkdir_all p : quiet (mkdir_all p).
Proof.
  intros w. unfold mkdir_all. destruct p as [|c p]; [auto|].
  destruct (missing_dirs _ _ _) as [ls|]; [apply quiet_make_dirs|auto].
Qed.
Lemma quiet_unlink ls : quiet (unlink_all ls).
Proof.
  induction ls as [|l ls IH]; cbn [unlink_all]; [apply quiet_ret|].
  apply quiet_bind; [apply quiet_change|]. intros [|]; [exact IH|apply quiet_ret].
Qed.
Lemma quiet_remove_all p : quiet (remove_all p).
Proof.
  intros w. unfold remove_all. destruct (resolve (w_disk w) p) as [l|]; [apply quiet_unlink|auto].
Qed.
Lemma quiet_rename p q : quiet (rename p q).
Proof.
  intros w. unfold rename. destruct (resolve (w_disk w) p) as [l|], (resolve_new (w_disk w) q) as [k|]; auto.
  destruct (fs_get (w_fs w) l) as [[c m|]|], (fs_get (w_fs w) k) as [[c' m'|]|]; auto;
    destruct (loc_eqb l k); auto; apply quiet_change.
Qed.
Lemma quiet_stat p : quiet (io_stat p).
Proof. intros w; split; reflexivity. Qed.
Lemma quiet_read p : quiet (io_read p).
Proof. intros w; split; reflexivity. Qed.
Lemma quiet_executable : quiet executable.
Proof. intros w; split; reflexivity. Qed.
Lemma quiet_now : quiet now.
Proof. intros w. unfold now. destruct (w_clock w); split; reflexivity. Qed.
Lemma quiet_http u : quiet (http_get u).
Proof. intros w. unfold http_get. destruct u; [auto|]. destruct (w_net w); split; reflexivity. Qed.
Lemma quiet_print t : quiet (print t).
Proof. intros w; split; reflexivity. Qed.

Create HintDb quiet.
Global Hint Resolve quiet_ret quiet_lift quiet_write_file quiet_mkdir_all quiet_remove_all quiet_rename
  quiet_stat quiet_read quiet_executable quiet_now quiet_http quiet_print quiet_open_trunc quiet_write : quiet.

Ltac quiet := repeat (first [ solve [auto with quiet] | apply quiet_bind; [| intros ]
  | match goal with |- quiet (match ?x with _ => _ end) => destruct x | |- quiet (if ?x then _ else _) => destruct x
    | |- quiet (let (_, _) := ?x in _) => destruct x end ]).

(** ** Creating a file in a directory that exists *)

Lemma walk_cleaned D p L :
  resolve D p = Some L ->
  walk (d_fs D) (start_of D p) (clean_elems (rooted p) [] (split_slash p)) = Some L.
Proof.
  intros Hr. assert (Hp : p <> []) by (destruct p; [discriminate|congruence]).
  apply clean_walk with (cur := start_of D p); try constructor.
  - unfold start_of. now intros ->.
  - rewrite <- resolve_walk by exact Hp. exact Hr.
Qed.

Lemma resolve_new_join D p L n :
  resolve D p = Some L -> is_dir (d_fs D) L = true -> plain_name n ->
  resolve_new D (join_path [p; n]) = Some (n :: L).
Proof.
  intros Hr Hd Hn. assert (Hp : p <> []) by (destruct p; [discriminate|congruence]).
  assert (Hj := resolve_join D p L [n] Hr ltac:(discriminate) (Forall_cons _ Hn (Forall_nil _))).
  rewrite walk_normal in Hj by apply Hn. rewrite Hd in Hj. unfold resolve_new. rewrite Hj.
  destruct (fs_get (d_fs D) (n :: L)) eqn:Eg; [reflexivity|].
  destruct Hn as [Hn Hs].
  rewrite join_path_text; [|exact Hp|discriminate|constructor; [now split|constructor]].
  assert (Hw := walk_cleaned D p L Hr). set (es := clean_elems (rooted p) [] (split_slash p)) in *.
  assert (Hes1 : Forall no_slash es) by (apply clean_elems_no_slash; [constructor|apply split_slash_no_slash]).
  assert (Hes2 : Forall (fun e => e <> [] /\ e <> dot) es) by (apply clean_elems_named; constructor).
  clearbody es.
  assert (Hb : bytes_eqb n [] || bytes_eqb n dot || bytes_eqb n dotdot = false).
  { destruct Hn as (H1 & H2 & H3). apply bytes_eqb_neq in H1, H2, H3. now rewrite H1, H2, H3. }
  assert (G : forall X, X <> [] -> split_path (X ++ slash :: n) = (X ++ [slash], n) ->
    resolve D (X ++ [slash]) = Some L ->
    (let (d, f) := split_path (X ++ slash :: n) in
     if bytes_eqb f [] || bytes_eqb f dot || bytes_eqb f dotdot then None
     else match match d with [] => Some (d_cwd D) | _ :: _ => resolve D d end with
          | Some l => if is_dir (d_fs D) l then Some (f :: l) else None
          | None => None
          end) = Some (n :: L)).
  { intros X HX Hsp HrX. rewrite Hsp, Hb. destruct (X ++ [slash]) eqn:E; [destruct X; discriminate|].
    rewrite HrX, Hd. reflexivity. }
  destruct es as [|e es].
  - cbn [walk] in Hw. injection Hw as HL. cbn [app join_slash].
    destruct (rooted p) eqn:Er.
    + change (slash :: n) with ([] ++ slash :: n). rewrite split_path_last by exact Hs. rewrite Hb.
      cbn [app]. unfold start_of in HL. rewrite Er in HL. subst L.
      replace (resolve D [slash]) with (Some (@nil bytes)); [reflexivity|]. reflexivity.
    + assert (Hsp : split_path n = ([], n)).
      { destruct (split_path n) as [d f] eqn:E. apply split_path_spec in E. destruct E as [_ [[-> ->]|(x & _ & Hx)]]; [reflexivity|].
        exfalso. apply Hs. rewrite Hx. apply in_or_app. right. now left. }
      rewrite Hsp, Hb. unfold start_of in HL. rewrite Er in HL. subst L. now rewrite Hd.
  - assert (Hr2 : resolve D (if rooted p then slash :: join_slash (e :: es) else join_slash (e :: es)) = Some L).
    { assert (H := resolve_built D p (e :: es) Hp Hes1 Hes2 ltac:(discriminate)). rewrite Hw in H. exact H. }
    replace (if rooted p then slash :: join_slash ((e :: es) ++ [n]) else join_slash ((e :: es) ++ [n]))
      with ((if rooted p then slash :: join_slash (e :: es) else join_slash (e :: es)) ++ slash :: n).
    2:{ rewrite join_slash_snoc by discriminate. now destruct (rooted p). }
    set (X := if rooted p then slash :: join_slash (e :: es) else join_slash (e :: es)) in *.
    assert (HX : X <> []) by (intros H; rewrite H in Hr2; discriminate).
    apply G; [exact HX|now apply split_path_last|].
    rewrite resolve_walk in Hr2 by exact HX. rewrite resolve_walk by (destruct X; discriminate).
    unfold start_of in *. rewrite rooted_app by exact HX. rewrite split_slash_app_slash, walk_app, Hr2.
    cbn. now rewrite Hd.
Qed.

(** Writing a file from the start: it holds a prefix of the data at every moment. *)
Lemma always_extend B E (I : fs -> Prop) l data :
  l <> [] ->
  (forall f m n n', I f -> fs_get f l = Some (NFile (firstn n data) m) -> I (fs_set l (NFile (firstn n' data) m) f)) ->
  forall rest i w m, since B E I w -> fs_get (w_fs w) l = Some (NFile (firstn i data) m) ->
  firstn i data ++ rest = firstn (i + length rest) data -> i + length rest <= length data ->
  since B E I (append_bytes l rest w).
Proof.
  intros Hl HI. induction rest as [|c rest IH]; intros i w m Hw Hg Hr Hi; cbn [append_bytes]; [exact Hw|].
  rewrite Hg. cbn [length] in *.
  assert (Hc : firstn i data ++ [c] = firstn (S i) data).
  { apply (f_equal (firstn (S i))) in Hr. rewrite firstn_firstn in Hr.
    replace (Nat.min (S i) (i + S (length rest))) with (S i) in Hr by lia. rewrite <- Hr.
    rewrite firstn_app. rewrite (firstn_all2 (n := S i)) by (rewrite firstn_length; lia).
    rewrite firstn_length. replace (S i - Nat.min i (length data)) with 1 by lia. reflexivity. }
  rewrite Hc. apply (IH (S i) _ m).
  - apply always_put; [exact Hw|]. apply (HI _ _ i); [apply Hw|exact Hg].
  - cbn. now apply fs_get_set_same.
  - rewrite <- Hc, <- app_assoc. cbn [app]. rewrite Hr. f_equal. lia.
  - lia.
Qed.

Lemma always_rewrite B E (I : fs -> Prop) p data perm l w :
  since B E I w -> resolve_new (w_disk w) p = Some l ->
  (forall f m n n', I f -> fs_get f l = Some (NFile (firstn n data) m) -> I (fs_set l (NFile (firstn n' data) m) f)) ->
  (forall f m, I f -> is_dir f l = false -> I (fs_set l (NFile [] m) f)) ->
  since B E I (fst (write_file p data perm w)).
Proof.
  intros Hw Hr H1 H2. unfold write_file, bind.
  assert (Ho : since B E I (fst (open_trunc p perm w))).
  { unfold open_trunc. rewrite Hr. destruct (fs_get (w_fs w) l) as [[c m|]|] eqn:Eg; [|exact Hw|];
      unfold bind, change, ret; destruct (w_faults w) as [|[n|] fl]; cbn [fst]; try exact Hw;
      apply always_put; try exact Hw; (apply H2; [apply Hw|unfold is_dir; cbn; now rewrite Eg]). }
  destruct (open_trunc p perm w) as [w1 [[l'|]| |]] eqn:Eo; cbn [fst] in Ho; try exact Ho.
  apply open_trunc_ok in Eo. destruct Eo as (mode & Hr' & Hd & Hf & He & _).
  rewrite Hr in Hr'. injection Hr' as <-. assert (Hl := is_dir_cons_nonroot _ _ Hd).
  assert (Hg : fs_get (w_fs w1) l = Some (NFile (firstn 0 data) mode)).
  { rewrite Hf. now apply fs_get_set_same. }
  unfold write_bytes. destruct (w_faults w1) as [|[n|] fl]; cbn [fst].
  - eapply always_extend with (i := 0) (data := data); eauto. cbn. now rewrite firstn_all.
  - eapply always_extend with (i := 0) (data := data) (w := set_faults fl w1); eauto.
    + cbn. rewrite firstn_length, <- (firstn_firstn data). now rewrite firstn_all.
    + cbn. rewrite firstn_length. lia.
  - eapply always_extend with (i := 0) (data := data) (w := set_faults fl w1); eauto. cbn. now rewrite firstn_all.
Qed.

Lemma append_keeps_trace l data e : forall w, In e (w_trace w) -> In e (w_trace (append_bytes l data w)).
Proof.
  induction data as [|c data IH]; intros w H; cbn [append_bytes]; [exact H|]. apply IH.
  destruct (fs_get (w_fs w) l) as [[old m|]|]; try exact H. now right.
Qed.

Lemma moments_in w f : In f (moments w) <-> In (EFs f) (w_trace w).
Proof.
  unfold moments. rewrite in_flat_map. split.
  - intros (e & He & Hf). destruct e; try (now destruct Hf). destruct Hf as [<-|[]]. exact He.
  - intros H. exists (EFs f). split; [exact H|now left].
Qed.

(** ** File systems in which every parent is a directory *)

Definition wf_fs (f : fs) : Prop := forall e l, fs_get f (e :: l) <> None -> is_dir f l = true.

Lemma chain_missing f es : wf_fs f -> forall cur ls l,
  fs_get f cur = None -> chain cur es = Some ls -> In l ls -> fs_get f l = None.
Proof.
  intros Hf. induction es as [|e es IH]; intros cur ls l Hc; cbn [chain].
  - intros [= <-] [].
  - destruct (bytes_eqb e [] || bytes_eqb e dot); [now apply IH|].
    destruct (bytes_eqb e dotdot); [discriminate|].
    assert (Hn : fs_get f (e :: cur) = None).
    { destruct (fs_get f (e :: cur)) eqn:Eg; [|reflexivity].
      assert (H : is_dir f cur = true) by (apply (Hf e); congruence).
      unfold is_dir in H. rewrite Hc in H. discriminate. }
    destruct (chain (e :: cur) es) as [ls'|] eqn:Ec; [|discriminate].
    intros [= <-] [<-|Hl]; [exact Hn|]. now apply (IH (e :: cur) ls').
Qed.

Lemma missing_missing f es : wf_fs f -> forall cur ls l,
  missing_dirs f cur es = Some ls -> In l ls -> fs_get f l = None.
Proof.
  intros Hf. induction es as [|e es IH]; intros cur ls l; cbn [missing_dirs].
  - destruct (is_dir f cur); [|discriminate]. intros [= <-] [].
  - destruct (bytes_eqb e [] || bytes_eqb e dot) eqn:E1; [apply IH|].
    destruct (bytes_eqb e dotdot) eqn:E2; [apply IH|].
    destruct (fs_get f (e :: cur)) as [[c m|]|] eqn:Eg; [discriminate|apply IH|].
    cbn [chain]. rewrite E1, E2. destruct (chain (e :: cur) es) as [ls'|] eqn:Ec; [|discriminate].
    intros [= <-] [<-|Hl]; [exact Eg|]. now apply (chain_missing f es Hf (e :: cur) ls').
Qed.

Lemma lexical_prefix xs : forall cur ys, ~ In dotdot (xs ++ ys) ->
  below (lexical cur xs) (lexical cur (xs ++ ys)) = true.
Proof.
  intros cur ys H. rewrite lexical_app. apply lexical_below; [|apply below_refl].
  intros Hd. apply H. apply in_or_app. now right.
Qed.

Lemma below_length l k : below l k = true -> length l <= length k.
Proof. intros H. apply below_spec in H. destruct H as [x ->]. rewrite app_length. lia. Qed.
