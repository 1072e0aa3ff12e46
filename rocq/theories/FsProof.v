(** Proofs about paths, path resolution and Glob. *)
From Verif Require Import Base Utf8 Path Fs.

(** ** Splitting and joining *)

Definition no_slash (s : bytes) : Prop := ~ In slash s.

Lemma is_slash_true c : is_slash c = true <-> c = slash.
Proof. apply Ascii.eqb_eq. Qed.

Lemma split_slash_nonempty s : split_slash s <> [].
Proof.
  destruct s as [|c s]; simpl; [discriminate|].
  destruct (is_slash c); [discriminate|]. destruct (split_slash s); discriminate.
Qed.

Lemma split_slash_no_slash s : Forall no_slash (split_slash s).
Proof.
  induction s as [|c s IH]; simpl.
  - repeat constructor. intros [].
  - destruct (is_slash c) eqn:E.
    + constructor; [intros []|exact IH].
    + destruct (split_slash s) as [|e es] eqn:Es.
      * repeat constructor. intros [H|[]]. subst. discriminate.
      * inversion IH as [|? ? He Hes]; subst. constructor; [|exact Hes].
        intros [H|H]; [subst; discriminate|now apply He].
Qed.

Lemma split_slash_app_slash x y :
  split_slash (x ++ slash :: y) = split_slash x ++ split_slash y.
Proof.
  induction x as [|c x IH]; simpl.
  - reflexivity.
  - destruct (is_slash c) eqn:E; [simpl; now rewrite IH|].
    rewrite IH. destruct (split_slash x) as [|e es] eqn:Es.
    + now apply split_slash_nonempty in Es.
    + reflexivity.
Qed.

Lemma split_slash_plain s : no_slash s -> split_slash s = [s].
Proof.
  induction s as [|c s IH]; simpl; intros H; [reflexivity|].
  destruct (is_slash c) eqn:E.
  - apply is_slash_true in E. subst. exfalso. apply H. now left.
  - rewrite IH; [reflexivity|]. intros Hin. apply H. now right.
Qed.

Lemma split_join l : l <> [] -> Forall no_slash l -> split_slash (join_slash l) = l.
Proof.
  intros Hn H. induction H as [|x l Hx Hl IH]; [congruence|].
  destruct l as [|y l].
  - simpl. now apply split_slash_plain.
  - change (join_slash (x :: y :: l)) with (x ++ slash :: join_slash (y :: l)).
    rewrite split_slash_app_slash, IH by discriminate. rewrite split_slash_plain by exact Hx.
    reflexivity.
Qed.

(** ** walk *)

Lemma walk_app f cur xs ys :
  walk f cur (xs ++ ys) =
  match walk f cur xs with Some l => walk f l ys | None => None end.
Proof.
  revert cur; induction xs as [|e xs IH]; intros cur; [reflexivity|].
  cbn [app walk]. destruct (negb (is_dir f cur)); [reflexivity|].
  destruct (bytes_eqb e [] || bytes_eqb e dot); [apply IH|].
  destruct (bytes_eqb e dotdot); [apply IH|].
  destruct (fs_get f (e :: cur)); [apply IH|reflexivity].
Qed.

(** An element that is a proper name. *)
Definition normal (e : bytes) : Prop := e <> [] /\ e <> dot /\ e <> dotdot.

Definition normalb (e : bytes) : bool :=
  negb (bytes_eqb e []) && negb (bytes_eqb e dot) && negb (bytes_eqb e dotdot).

Lemma normalb_ok e : normalb e = true <-> normal e.
Proof.
  unfold normalb, normal. rewrite !andb_true_iff, !negb_true_iff, !bytes_eqb_neq. tauto.
Qed.

Lemma walk_normal f cur e :
  normal e ->
  walk f cur [e] =
  if is_dir f cur then
    match fs_get f (e :: cur) with Some _ => Some (e :: cur) | None => None end
  else None.
Proof.
  intros (H1 & H2 & H3). simpl.
  apply bytes_eqb_neq in H1, H2, H3. rewrite H1, H2, H3. simpl.
  destruct (is_dir f cur); reflexivity.
Qed.

Lemma clean_elems_app_normal r n acc xs :
  normal n -> clean_elems r acc (xs ++ [n]) = clean_elems r acc xs ++ [n].
Proof.
  intros Hn. assert (Hn' := Hn). destruct Hn' as (H1 & H2 & H3).
  apply bytes_eqb_neq in H1, H2, H3.
  revert acc; induction xs as [|e xs IH]; intros acc; cbn [app clean_elems].
  - rewrite H1, H2, H3. simpl. reflexivity.
  - destruct (bytes_eqb e [] || bytes_eqb e dot); [apply IH|].
    destruct (bytes_eqb e dotdot); [|apply IH].
    destruct acc as [|a acc]; [destruct r; apply IH|].
    destruct (bytes_eqb a dotdot); apply IH.
Qed.

(** The invariant of cleaning: the accumulated elements lead where the elements
    read so far led. *)
Lemma clean_walk f r start es : forall acc cur L,
  (r = true -> start = []) ->
  Forall (fun e => e <> [] /\ e <> dot) acc ->
  (r = true -> Forall (fun e => e <> dotdot) acc) ->
  walk f start (rev acc) = Some cur ->
  walk f cur es = Some L ->
  walk f start (clean_elems r acc es) = Some L.
Proof.
  induction es as [|e es IH]; intros acc cur L Hr Hacc Hdd Hw He.
  - simpl in *. now injection He as <-.
  - cbn [walk] in He. destruct (is_dir f cur) eqn:Hd; cbn [negb] in He; [|discriminate].
    cbn [clean_elems]. destruct (bytes_eqb e [] || bytes_eqb e dot) eqn:E1.
    + eapply IH; eauto.
    + apply orb_false_iff in E1. destruct E1 as [E1 E1'].
      destruct (bytes_eqb e dotdot) eqn:E2.
      * apply bytes_eqb_eq in E2. subst e.
        destruct acc as [|a acc].
        { simpl in Hw. injection Hw as <-. destruct r.
          - rewrite (Hr eq_refl) in *. eapply IH; eauto. reflexivity.
          - eapply IH with (cur := tl start); eauto; try discriminate.
            + repeat constructor; discriminate.
            + simpl. rewrite Hd. reflexivity. }
        destruct (bytes_eqb a dotdot) eqn:Ea.
        { apply bytes_eqb_eq in Ea. subst a.
          eapply IH with (cur := tl cur); eauto.
          - constructor; [split; discriminate|exact Hacc].
          - intros Hrt. exfalso. specialize (Hdd Hrt). inversion Hdd; subst. congruence.
          - change (rev (dotdot :: dotdot :: acc)) with (rev (dotdot :: acc) ++ [dotdot]).
            rewrite walk_app, Hw. simpl. rewrite Hd. reflexivity. }
        { simpl in Hw. rewrite walk_app in Hw.
          destruct (walk f start (rev acc)) as [prev|] eqn:Ep; [|discriminate].
          inversion Hacc as [|? ? [Ha1 Ha2] Hacc']; subst.
          apply bytes_eqb_neq in Ea.
          rewrite walk_normal in Hw by (repeat split; assumption).
          destruct (is_dir f prev); [|discriminate].
          destruct (fs_get f (a :: prev)); [|discriminate]. injection Hw as <-.
          eapply IH with (cur := prev); eauto.
          intros Hrt. specialize (Hdd Hrt). now inversion Hdd. }
      * destruct (fs_get f (e :: cur)) as [nd|] eqn:Eg; [|discriminate].
        apply bytes_eqb_neq in E1, E1', E2.
        apply (IH (e :: acc) (e :: cur) L); [exact Hr|auto| |idtac|exact He].
        { intros Hrt. constructor; [exact E2|now apply Hdd]. }
        cbn [rev]. rewrite walk_app, Hw. rewrite walk_normal by (repeat split; assumption).
        rewrite Hd, Eg. reflexivity.
Qed.

Lemma clean_elems_no_slash r acc es :
  Forall no_slash acc -> Forall no_slash es -> Forall no_slash (clean_elems r acc es).
Proof.
  intros Ha H. revert acc Ha. induction H as [|e es He H IH]; intros acc Ha; cbn [clean_elems].
  - now apply Forall_rev.
  - destruct (bytes_eqb e [] || bytes_eqb e dot); [auto|].
    destruct (bytes_eqb e dotdot); [|auto].
    destruct acc as [|a acc]; [destruct r; auto|].
    destruct (bytes_eqb a dotdot); [auto|]. apply IH. now inversion Ha.
Qed.

(** Elements after cleaning are not empty and not a dot. *)
Lemma clean_elems_named r acc es :
  Forall (fun e => e <> [] /\ e <> dot) acc ->
  Forall (fun e => e <> [] /\ e <> dot) (clean_elems r acc es).
Proof.
  revert acc. induction es as [|e es IH]; intros acc Ha; cbn [clean_elems].
  - now apply Forall_rev.
  - destruct (bytes_eqb e [] || bytes_eqb e dot) eqn:E; [auto|].
    apply orb_false_iff in E. destruct E as [E1 E2]. apply bytes_eqb_neq in E1, E2.
    destruct (bytes_eqb e dotdot); [|auto].
    destruct acc as [|a acc]; [destruct r; auto|].
    destruct (bytes_eqb a dotdot); [auto|]. apply IH. now inversion Ha.
Qed.

Definition start_of (D : disk) (p : bytes) : loc := if rooted p then [] else d_cwd D.

Lemma resolve_walk D p : p <> [] -> resolve D p = walk (d_fs D) (start_of D p) (split_slash p).
Proof. destruct p; [congruence|reflexivity]. Qed.

Lemma rooted_app p q : p <> [] -> rooted (p ++ q) = rooted p.
Proof. destruct p; [congruence|reflexivity]. Qed.

Lemma join_slash_rooted es :
  Forall no_slash es -> (forall e, hd_error es = Some e -> e <> []) -> rooted (join_slash es) = false.
Proof.
  intros H Hh. destruct es as [|x es]; [reflexivity|].
  inversion H as [|? ? Hx Hes]; subst. specialize (Hh x eq_refl).
  destruct x as [|c x]; [congruence|].
  assert (is_slash c = false).
  { destruct (is_slash c) eqn:E; [|reflexivity]. apply is_slash_true in E. subst.
    exfalso. apply Hx. now left. }
  destruct es; exact H0.
Qed.

(** Resolving the text built from cleaned elements. *)
Lemma resolve_built D p es :
  p <> [] -> Forall no_slash es -> Forall (fun e => e <> [] /\ e <> dot) es -> es <> [] ->
  resolve D (if rooted p then slash :: join_slash es
             else match es with [] => dot | _ => join_slash es end)
  = walk (d_fs D) (start_of D p) es.
Proof.
  intros Hp Hns Hnm Hne. unfold start_of.
  destruct (rooted p) eqn:Er.
  - cbn [resolve rooted]. change (is_slash slash) with true. cbn iota.
    cbn [split_slash]. change (is_slash slash) with true. cbn iota.
    rewrite split_join by assumption. cbn [walk]. reflexivity.
  - destruct es as [|x es]; [congruence|].
    assert (Hj : join_slash (x :: es) <> []).
    { inversion Hnm as [|? ? [Hx _] _]; subst. destruct x; [congruence|]. destruct es; discriminate. }
    rewrite resolve_walk by exact Hj. unfold start_of.
    rewrite join_slash_rooted; [|exact Hns|].
    + now rewrite split_join.
    + intros e [= <-]. now inversion Hnm.
Qed.

Lemma join_path_cons p ns :
  p <> [] -> join_path (p :: ns) = clean (join_slash (p :: ns)).
Proof. intros H. cbn [join_path]. apply bytes_eqb_neq in H. now rewrite H. Qed.

Definition plain_name (n : bytes) : Prop := normal n /\ no_slash n.

Lemma join_slash_app_names p ns :
  ns <> [] -> join_slash (p :: ns) = p ++ slash :: join_slash ns.
Proof. destruct ns; [congruence|reflexivity]. Qed.

Lemma clean_elems_names r acc xs ns :
  Forall plain_name ns -> clean_elems r acc (xs ++ ns) = clean_elems r acc xs ++ ns.
Proof.
  intros H. revert xs. induction H as [|n ns [Hn _] H IH]; intros xs.
  - now rewrite !app_nil_r.
  - replace (xs ++ n :: ns) with ((xs ++ [n]) ++ ns) by (rewrite <- app_assoc; reflexivity).
    rewrite IH, clean_elems_app_normal by exact Hn. now rewrite <- app_assoc.
Qed.

(** filepath.Join of a path and proper names, resolved, is the walk by those
    names from where the path leads. *)
Lemma resolve_join D p L ns :
  resolve D p = Some L -> ns <> [] -> Forall plain_name ns ->
  resolve D (join_path (p :: ns)) = walk (d_fs D) L ns.
Proof.
  intros Hr Hne Hns.
  assert (Hp : p <> []) by (destruct p; [discriminate|congruence]).
  rewrite join_path_cons by exact Hp. unfold clean.
  rewrite join_slash_app_names by exact Hne.
  rewrite rooted_app by exact Hp.
  rewrite split_slash_app_slash, split_join; [|exact Hne|].
  2:{ apply Forall_impl with (2 := Hns). now intros n [_ H]. }
  rewrite clean_elems_names by exact Hns.
  set (es := clean_elems (rooted p) [] (split_slash p)).
  assert (Hes1 : Forall no_slash es) by (apply clean_elems_no_slash; [constructor|apply split_slash_no_slash]).
  assert (Hes2 : Forall (fun e => e <> [] /\ e <> dot) es) by (apply clean_elems_named; constructor).
  rewrite resolve_built; [| exact Hp | | | ].
  - rewrite walk_app.
    replace (walk (d_fs D) (start_of D p) es) with (Some L); [reflexivity|]. symmetry.
    unfold es. apply clean_walk with (cur := start_of D p); try constructor.
    + unfold start_of. now intros ->.
    + rewrite <- resolve_walk by exact Hp. exact Hr.
  - apply Forall_app. split; [exact Hes1|]. apply Forall_impl with (2 := Hns). now intros n [_ H].
  - apply Forall_app. split; [exact Hes2|]. apply Forall_impl with (2 := Hns).
    intros n [(H1 & H2 & _) _]; auto.
  - destruct es; [exact Hne|discriminate].
Qed.

(** The same text can be extended again. *)
Lemma join_join D p L ns ms :
  resolve D p = Some L -> ns <> [] -> ms <> [] -> Forall plain_name ns -> Forall plain_name ms ->
  forall M, resolve D (join_path (p :: ns)) = Some M ->
  resolve D (join_path (join_path (p :: ns) :: ms)) = walk (d_fs D) M ms.
Proof. intros. now apply resolve_join. Qed.

(** ** The file system *)

Lemma loc_eqb_eq x y : loc_eqb x y = true <-> x = y.
Proof.
  revert y; induction x as [|c x IH]; intros [|d y]; simpl; try (split; congruence).
  rewrite andb_true_iff, bytes_eqb_eq, IH. split; [intros [-> ->]; reflexivity|intros [= -> ->]; auto].
Qed.

Lemma loc_eqb_refl x : loc_eqb x x = true.
Proof. now apply loc_eqb_eq. Qed.

Lemma loc_eqb_neq x y : loc_eqb x y = false <-> x <> y.
Proof. rewrite <- loc_eqb_eq. destruct (loc_eqb x y); split; congruence. Qed.

Lemma fs_get_del f l k : k <> [] -> fs_get (fs_del l f) k = if loc_eqb k l then None else fs_get f k.
Proof.
  intros Hk. unfold fs_get, fs_del. destruct k as [|e k]; [congruence|].
  induction f as [|[l' n] f IH]; cbn [filter find fst].
  - destruct (loc_eqb (e :: k) l); reflexivity.
  - destruct (loc_eqb l' l) eqn:E; cbn [negb find fst].
    + rewrite IH. apply loc_eqb_eq in E. subst l'.
      destruct (loc_eqb (e :: k) l) eqn:E3; [reflexivity|].
      destruct (loc_eqb l (e :: k)) eqn:E2; [|reflexivity].
      apply loc_eqb_eq in E2. subst l. rewrite loc_eqb_refl in E3. discriminate.
    + destruct (loc_eqb l' (e :: k)) eqn:E2; [|exact IH].
      apply loc_eqb_eq in E2. subst l'. rewrite E. reflexivity.
Qed.

Lemma fs_get_set f l n k : k <> [] -> fs_get (fs_set l n f) k = if loc_eqb k l then Some n else fs_get f k.
Proof.
  intros Hk. unfold fs_set. destruct (loc_eqb k l) eqn:E.
  - apply loc_eqb_eq in E. subst l. destruct k as [|e k]; [congruence|]. unfold fs_get.
    cbn [find fst]. rewrite loc_eqb_refl. reflexivity.
  - destruct k as [|e k]; [congruence|].
    assert (E' : loc_eqb l (e :: k) = false).
    { apply loc_eqb_neq. apply loc_eqb_neq in E. congruence. }
    transitivity (fs_get (fs_del l f) (e :: k)).
    + unfold fs_get. cbn [find fst]. now rewrite E'.
    + rewrite fs_get_del by discriminate. now rewrite E.
Qed.

(** ** Directory listings *)

Definition name_lt (x y : bytes) : Prop := bytes_ltb x y = true.

Lemma insert_bytes_in x l y : In y (insert_bytes x l) <-> y = x \/ In y l.
Proof.
  induction l as [|z l IH]; simpl.
  - intuition.
  - destruct (bytes_ltb x z); [simpl; intuition|].
    destruct (bytes_eqb x z) eqn:E.
    + apply bytes_eqb_eq in E. subst. simpl. intuition.
    + simpl. rewrite IH. intuition.
Qed.

Lemma insert_bytes_sorted x l :
  StronglySorted name_lt l -> StronglySorted name_lt (insert_bytes x l).
Proof.
  intros H. induction H as [|z l Hl IH Hz]; simpl.
  - repeat constructor.
  - destruct (bytes_ltb x z) eqn:E1.
    + constructor; [constructor; assumption|]. constructor; [exact E1|].
      rewrite Forall_forall in *. intros y Hy. unfold name_lt in *.
      eapply bytes_ltb_trans; eauto.
    + destruct (bytes_eqb x z) eqn:E2; [constructor; assumption|].
      constructor; [exact IH|].
      rewrite Forall_forall in *. intros y Hy. apply insert_bytes_in in Hy.
      destruct Hy as [->|Hy]; [|now apply Hz].
      unfold name_lt. destruct (bytes_ltb z x) eqn:E3; [reflexivity|].
      apply bytes_eqb_neq in E2. exfalso. apply E2. now apply bytes_ltb_total.
Qed.

Lemma list_dir_sorted f l : StronglySorted name_lt (list_dir f l).
Proof.
  induction f as [|[k n] f IH]; simpl; [constructor|].
  destruct k as [|e k]; [exact IH|]. simpl.
  destruct (loc_eqb k l); [now apply insert_bytes_sorted|exact IH].
Qed.

Lemma list_dir_in f l n : In n (list_dir f l) <-> fs_get f (n :: l) <> None.
Proof.
  unfold fs_get. induction f as [|[k nd] f IH]; simpl.
  - split; [tauto|congruence].
  - destruct k as [|e k]; simpl.
    + exact IH.
    + destruct (loc_eqb k l) eqn:E.
      * rewrite insert_bytes_in, andb_true_r. apply loc_eqb_eq in E. subst k.
        destruct (bytes_eqb e n) eqn:E2; simpl.
        -- apply bytes_eqb_eq in E2. subst. split; [discriminate|auto].
        -- rewrite <- IH. apply bytes_eqb_neq in E2. split; [intros [->|H]; congruence|auto].
      * rewrite andb_false_r. exact IH.
Qed.

Lemma sorted_names_unique l l' :
  StronglySorted name_lt l -> StronglySorted name_lt l' ->
  (forall x, In x l <-> In x l') -> l = l'.
Proof.
  intros H. revert l'. induction H as [|x l Hl IH Hx]; intros l' Hl' Hin.
  - destruct l' as [|y l']; [reflexivity|]. exfalso. apply (Hin y). now left.
  - destruct Hl' as [|y l' Hl' Hy].
    + exfalso. apply (Hin x). now left.
    + rewrite Forall_forall in Hx, Hy.
      assert (x = y) as ->.
      { assert (H1 : In x (y :: l')) by (apply Hin; now left).
        assert (H2 : In y (x :: l)) by (apply Hin; now left).
        destruct H1 as [H1|H1]; [now symmetry|]. destruct H2 as [H2|H2]; [exact H2|].
        specialize (Hx _ H2). specialize (Hy _ H1). unfold name_lt in *.
        pose proof (bytes_ltb_trans _ _ _ Hx Hy) as Hc. rewrite bytes_ltb_irrefl in Hc. discriminate. }
      f_equal. apply IH; [exact Hl'|].
      intros z. specialize (Hin z). simpl in Hin.
      assert (Hirr : forall m, In y m -> (forall w, In w m -> name_lt y w) -> False).
      { intros m Hm Hall. specialize (Hall _ Hm). unfold name_lt in Hall.
        rewrite bytes_ltb_irrefl in Hall. discriminate. }
      split; intros Hz.
      * assert (y = z \/ In z l') as [->|?] by tauto; [|assumption]. exfalso; eauto.
      * assert (y = z \/ In z l) as [->|?] by tauto; [|assumption]. exfalso; eauto.
Qed.

Lemma filter_sorted {A} (R : A -> A -> Prop) p l :
  StronglySorted R l -> StronglySorted R (filter p l).
Proof.
  intros H. induction H as [|x l Hl IH Hx]; simpl; [constructor|].
  destruct (p x); [|exact IH]. constructor; [exact IH|].
  rewrite Forall_forall in *. intros y Hy. apply filter_In in Hy. now apply Hx.
Qed.

(** ** Glob *)

Lemma has_meta_app x y : has_meta (x ++ y) = has_meta x || has_meta y.
Proof. apply existsb_app. Qed.

(** A text without metacharacters is a pattern that stands for itself. *)
Lemma glob_tokens_plain s : has_meta s = false ->
  forall fuel, length s < fuel -> glob_tokens fuel s = Some (map GLit s).
Proof.
  induction s as [|c s IH]; intros Hm [|f] Hf; simpl in Hf; try lia; [reflexivity|].
  simpl in Hm. apply orb_false_iff in Hm. destruct Hm as [Hc Hm].
  unfold is_meta in Hc. rewrite !orb_false_iff in Hc. destruct Hc as [[[H1 H2] H3] H4].
  cbn [glob_tokens]. rewrite H1, H2, H4, H3. rewrite IH by (auto; lia). reflexivity.
Qed.

Lemma glob_tokens_app_plain s rest : has_meta s = false ->
  forall fuel, length s < fuel ->
  glob_tokens fuel (s ++ rest) = option_map (app (map GLit s)) (glob_tokens (fuel - length s) rest).
Proof.
  induction s as [|c s IH]; intros Hm f Hf.
  - simpl. rewrite Nat.sub_0_r. destruct (glob_tokens f rest); reflexivity.
  - destruct f as [|f]; [lia|]. simpl in Hf.
    simpl in Hm. apply orb_false_iff in Hm. destruct Hm as [Hc Hm].
    unfold is_meta in Hc. rewrite !orb_false_iff in Hc. destruct Hc as [[[H1 H2] H3] H4].
    cbn [app glob_tokens length Nat.sub]. rewrite H1, H2, H4, H3. rewrite IH by (auto; lia).
    destruct (glob_tokens (f - length s) rest); reflexivity.
Qed.

(** More fuel does not change the tokens. *)
Lemma class_ranges_len fuel : forall acc s rs r,
  class_ranges fuel acc s = Some (rs, r) -> length r < length s.
Proof.
  assert (Hd : forall s r t, dec1 s = Some (r, t) -> length t < length s).
  { intros s r t. destruct s as [|c0 s1]; [discriminate|]. cbn [dec1].
    repeat (match goal with
      | |- context [if ?x then _ else _] => destruct x
      | |- context [match ?x with [] => _ | _ :: _ => _ end] => destruct x
      end); intros H; injection H as <- <-; simpl; lia. }
  assert (He : forall s r t, get_esc s = Some (r, t) -> length t < length s).
  { intros s r t. destruct s as [|c s1]; [discriminate|]. cbn [get_esc].
    destruct (_ || _); [discriminate|].
    destruct (Ascii.eqb c "\").
    - destruct (dec1 s1) as [[r' t']|] eqn:E; [|discriminate]. apply Hd in E.
      destruct t'; [discriminate|]. intros H; injection H as <- <-. simpl in *; lia.
    - destruct (dec1 (c :: s1)) as [[r' t']|] eqn:E; [|discriminate]. apply Hd in E.
      destruct t'; [discriminate|]. intros H; injection H as <- <-. simpl in *; lia. }
  induction fuel as [|f IH]; intros acc s rs r H; [discriminate|].
  cbn [class_ranges] in H.
  assert (Hrest : match get_esc s with
     | None => None
     | Some (lo, c2 :: s2) =>
         if Ascii.eqb c2 "-" then
           match get_esc s2 with
           | None => None
           | Some (hi, s3) => class_ranges f ((lo, hi) :: acc) s3
           end
         else class_ranges f ((lo, lo) :: acc) (c2 :: s2)
     | Some (lo, []) => None
     end = Some (rs, r) -> length r < length s).
  { clear H. intros H. destruct (get_esc s) as [[lo [|c2 s2]]|] eqn:E; try discriminate.
    apply He in E. simpl in E. destruct (Ascii.eqb c2 "-").
    - destruct (get_esc s2) as [[hi s3]|] eqn:E2; [|discriminate].
      apply He in E2. apply IH in H. lia.
    - apply IH in H. simpl in H. lia. }
  destruct s as [|c s1].
  - destruct acc; now apply Hrest.
  - destruct acc as [|a acc].
    + now apply Hrest.
    + destruct (Ascii.eqb c "]").
      * injection H as _ <-. simpl. lia.
      * now apply Hrest.
Qed.

Lemma glob_tokens_mono f1 : forall f2 s,
  length s < f1 -> f1 <= f2 -> glob_tokens f2 s = glob_tokens f1 s.
Proof.
  induction f1 as [|f1 IH]; intros f2 s Hs Hle; [lia|].
  destruct f2 as [|f2]; [lia|]. cbn [glob_tokens].
  destruct s as [|c s1]; [reflexivity|]. simpl in Hs.
  destruct (Ascii.eqb c "*"); [now rewrite IH by lia|].
  destruct (Ascii.eqb c "?"); [now rewrite IH by lia|].
  destruct (Ascii.eqb c "\").
  { destruct s1 as [|e s2]; [reflexivity|]. simpl in Hs. now rewrite IH by lia. }
  destruct (Ascii.eqb c "["); [|now rewrite IH by lia].
  assert (Hc : forall s2, length s2 <= length s1 ->
     match class_ranges (S (length s2)) [] s2 with
     | Some (rs, s3) => option_map (cons (GClass true rs)) (glob_tokens f2 s3)
     | None => None
     end =
     match class_ranges (S (length s2)) [] s2 with
     | Some (rs, s3) => option_map (cons (GClass true rs)) (glob_tokens f1 s3)
     | None => None
     end /\
     match class_ranges (S (length s2)) [] s2 with
     | Some (rs, s3) => option_map (cons (GClass false rs)) (glob_tokens f2 s3)
     | None => None
     end =
     match class_ranges (S (length s2)) [] s2 with
     | Some (rs, s3) => option_map (cons (GClass false rs)) (glob_tokens f1 s3)
     | None => None
     end).
  { intros s2 Hs2. destruct (class_ranges (S (length s2)) [] s2) as [[rs s3]|] eqn:E; [|auto].
    apply class_ranges_len in E. rewrite IH by lia. auto. }
  destruct s1 as [|e s2]; [now apply Hc|].
  destruct (Ascii.eqb e "^"); apply Hc; simpl; lia.
Qed.

(** ** The pattern of the band files *)

Definition band_toks : list gtok :=
  map GLit (b "band_") ++ GStar :: map GLit (b ".js").

Lemma glob_tokens_star fuel rest :
  glob_tokens (S fuel) ("*"%char :: rest) = option_map (cons GStar) (glob_tokens fuel rest).
Proof. reflexivity. Qed.

Lemma match_lits l ts s :
  match_toks (map GLit l ++ ts) s = true <-> exists r, s = l ++ r /\ match_toks ts r = true.
Proof.
  revert s; induction l as [|c l IH]; intros s; simpl.
  - split; [intros H; exists s; auto|intros (r & -> & H); exact H].
  - destruct s as [|d s].
    + split; [discriminate|intros (r & H & _); discriminate].
    + rewrite andb_true_iff, Ascii.eqb_eq, IH. split.
      * intros [-> (r & -> & H)]. exists r. auto.
      * intros (r & [= -> ->] & H). split; [reflexivity|]. exists r. auto.
Qed.

Lemma match_star ts s :
  match_toks (GStar :: ts) s = true <->
  exists x r, s = x ++ r /\ no_slash x /\ match_toks ts r = true.
Proof.
  cbn [match_toks]. induction s as [|c s IH].
  - rewrite orb_false_r. split.
    + intros H. exists [], []. repeat split; auto. intros [].
    + intros (x & r & E & _ & H). symmetry in E. apply app_eq_nil in E. destruct E as [-> ->]. exact H.
  - rewrite orb_true_iff, andb_true_iff, IH, negb_true_iff. split.
    + intros [H|[Hc (x & r & -> & Hx & H)]].
      * exists [], (c :: s). repeat split; auto. intros [].
      * exists (c :: x), r. repeat split; auto. intros [->|Hin]; [|now apply Hx].
        unfold is_slash in Hc. rewrite Ascii.eqb_refl in Hc. discriminate.
    + intros (x & r & E & Hx & H). destruct x as [|d x].
      * simpl in E. subst. left. exact H.
      * injection E as <- ->. right. split.
        -- destruct (is_slash c) eqn:Ec; [|reflexivity]. apply is_slash_true in Ec. subst.
           exfalso. apply Hx. now left.
        -- exists x, r. repeat split; auto. intros Hin. apply Hx. now right.
Qed.

Lemma match_band n :
  match_toks band_toks n = true <-> exists x, n = b "band_" ++ x ++ b ".js" /\ no_slash x.
Proof.
  unfold band_toks. rewrite match_lits. split.
  - intros (r & -> & H). apply match_star in H. destruct H as (x & r' & -> & Hx & H).
    replace (map GLit (b ".js")) with (map GLit (b ".js") ++ []) in H by apply app_nil_r.
    apply match_lits in H. destruct H as (r2 & -> & H2).
    destruct r2; [|discriminate]. rewrite app_nil_r. eauto.
  - intros (x & -> & Hx). eexists. split; [reflexivity|]. apply match_star.
    exists x, (b ".js"). repeat split; auto.
Qed.

Lemma no_slash_app x y : no_slash x -> no_slash y -> no_slash (x ++ y).
Proof. unfold no_slash. intros Hx Hy H. apply in_app_or in H. tauto. Qed.

Lemma band_name_plain n : match_toks band_toks n = true -> plain_name n.
Proof.
  intros H. apply match_band in H. destruct H as (x & -> & Hx). split.
  - repeat split; discriminate.
  - apply no_slash_app; [vm_compute; intuition discriminate|].
    apply no_slash_app; [exact Hx|vm_compute; intuition discriminate].
Qed.

(** ** Split at the last slash *)

Lemma split_path_last d f : no_slash f -> split_path (d ++ slash :: f) = (d ++ [slash], f).
Proof.
  intros Hf.
  assert (H0 : forall g, no_slash g -> split_path g = ([], g)).
  { induction g as [|c g IH]; intros Hg; [reflexivity|]. cbn [split_path].
    rewrite IH by (intros Hin; apply Hg; now right).
    destruct (is_slash c) eqn:E; [|reflexivity]. apply is_slash_true in E. subst.
    exfalso. apply Hg. now left. }
  induction d as [|c d IH].
  - cbn [app split_path]. rewrite H0 by exact Hf. reflexivity.
  - cbn [app split_path]. rewrite IH. destruct (d ++ [slash]) eqn:E; [|reflexivity].
    destruct d; discriminate.
Qed.

Lemma join_slash_snoc es n : es <> [] -> join_slash (es ++ [n]) = join_slash es ++ slash :: n.
Proof.
  induction es as [|x es IH]; intros H; [congruence|].
  destruct es as [|y es].
  - reflexivity.
  - change (join_slash ((x :: y :: es) ++ [n])) with (x ++ slash :: join_slash ((y :: es) ++ [n])).
    rewrite IH by discriminate.
    change (join_slash (x :: y :: es)) with (x ++ slash :: join_slash (y :: es)).
    rewrite <- app_assoc. reflexivity.
Qed.

(** filepath.Join of a path and names, written out. *)
Lemma join_path_text p ns :
  p <> [] -> ns <> [] -> Forall plain_name ns ->
  join_path (p :: ns) =
  (if rooted p then slash :: join_slash (clean_elems (rooted p) [] (split_slash p) ++ ns)
   else join_slash (clean_elems (rooted p) [] (split_slash p) ++ ns)).
Proof.
  intros Hp Hne Hns. rewrite join_path_cons by exact Hp. unfold clean.
  rewrite join_slash_app_names by exact Hne. rewrite rooted_app by exact Hp.
  rewrite split_slash_app_slash, split_join; [|exact Hne|].
  2:{ apply Forall_impl with (2 := Hns). now intros n [_ H]. }
  rewrite clean_elems_names by exact Hns.
  destruct (rooted p); [reflexivity|].
  destruct (clean_elems false [] (split_slash p) ++ ns) eqn:E; [|reflexivity].
  apply app_eq_nil in E. destruct E as [_ ->]. congruence.
Qed.

Lemma join_path_snoc p ns n :
  p <> [] -> ns <> [] -> Forall plain_name ns -> plain_name n ->
  join_path (p :: ns ++ [n]) = join_path (p :: ns) ++ slash :: n.
Proof.
  intros Hp Hne Hns Hn.
  rewrite (join_path_text p (ns ++ [n])), (join_path_text p ns); auto.
  - rewrite app_assoc.
    destruct (rooted p); rewrite join_slash_snoc; try reflexivity;
      destruct (clean_elems _ [] (split_slash p)); try discriminate; exact Hne.
  - destruct ns; discriminate.
  - apply Forall_app. auto.
Qed.

Lemma has_meta_join es :
  has_meta (join_slash es) = existsb has_meta es.
Proof.
  induction es as [|x es IH]; [reflexivity|]. destruct es as [|y es].
  - simpl. now rewrite orb_false_r.
  - change (join_slash (x :: y :: es)) with (x ++ slash :: join_slash (y :: es)).
    rewrite has_meta_app. cbn [has_meta existsb]. change (is_meta slash) with false. cbn [orb].
    fold (has_meta (join_slash (y :: es))). rewrite IH. reflexivity.
Qed.

Lemma has_meta_split s : existsb has_meta (split_slash s) = has_meta s.
Proof.
  induction s as [|c s IH]; [reflexivity|]. cbn [split_slash].
  destruct (is_slash c) eqn:E.
  - apply is_slash_true in E. subst. simpl. exact IH.
  - destruct (split_slash s) as [|e es] eqn:Es; [now apply split_slash_nonempty in Es|].
    cbn [existsb] in IH |- *. change (has_meta (c :: e)) with (is_meta c || has_meta e).
    change (has_meta (c :: s)) with (is_meta c || has_meta s).
    rewrite <- orb_assoc. rewrite IH. reflexivity.
Qed.

Lemma clean_elems_meta r acc es :
  existsb has_meta acc = false -> existsb has_meta es = false ->
  existsb has_meta (clean_elems r acc es) = false.
Proof.
  revert acc; induction es as [|e es IH]; intros acc Ha He; cbn [clean_elems].
  - destruct (existsb has_meta (rev acc)) eqn:E; [|reflexivity].
    apply existsb_exists in E. destruct E as (x & Hin & Hx). apply in_rev in Hin.
    rewrite <- Ha. symmetry. apply existsb_exists. eauto.
  - cbn [existsb] in He. apply orb_false_iff in He. destruct He as [He1 He2].
    destruct (bytes_eqb e [] || bytes_eqb e dot); [auto|].
    destruct (bytes_eqb e dotdot).
    + destruct acc as [|a acc].
      * destruct r; apply IH; auto. simpl. now rewrite He1.
      * cbn [existsb] in Ha. apply orb_false_iff in Ha. destruct Ha as [Ha1 Ha2].
        destruct (bytes_eqb a dotdot); apply IH; auto.
        simpl. now rewrite He1, Ha1, Ha2.
    + apply IH; auto. simpl. now rewrite He1, Ha.
Qed.

Lemma join_path_meta p ns :
  p <> [] -> ns <> [] -> Forall plain_name ns -> has_meta p = false ->
  existsb has_meta ns = false -> has_meta (join_path (p :: ns)) = false.
Proof.
  intros Hp Hne Hns Hm Hmn. rewrite join_path_text by assumption.
  assert (H : has_meta (join_slash (clean_elems (rooted p) [] (split_slash p) ++ ns)) = false).
  { rewrite has_meta_join, existsb_app, Hmn, orb_false_r.
    apply clean_elems_meta; [reflexivity|]. rewrite has_meta_split. exact Hm. }
  destruct (rooted p); [|exact H]. cbn [has_meta existsb]. change (is_meta slash) with false. exact H.
Qed.

Lemma removelast_snoc {A} (l : list A) x : removelast (l ++ [x]) = l.
Proof. apply removelast_last. Qed.

(** Glob of a plain directory and a pattern name. *)
Lemma glob_plain D dir file ts :
  dir <> [] -> dir <> [slash] -> has_meta dir = false -> no_slash file ->
  has_meta file = true -> glob_tokens (S (length file)) file = Some ts ->
  glob D (dir ++ slash :: file) = Some (glob_in D ts dir).
Proof.
  intros Hd Hd2 Hm Hf Hfm Ht. unfold glob.
  set (p := dir ++ slash :: file).
  assert (Htp : exists tp, glob_tokens (S (length p)) p = Some tp).
  { unfold p. change (dir ++ slash :: file) with (dir ++ [slash] ++ file). rewrite app_assoc.
    rewrite glob_tokens_app_plain.
    - rewrite app_length.
      replace (S (length (dir ++ [slash]) + length file) - length (dir ++ [slash]))
        with (S (length file)) by lia.
      rewrite Ht. simpl. eauto.
    - rewrite has_meta_app, Hm. reflexivity.
    - rewrite !app_length. lia. }
  destruct Htp as (tp & Htp). cbn [glob_fuel]. rewrite Htp.
  replace (has_meta p) with true.
  2:{ unfold p. rewrite has_meta_app. cbn [has_meta existsb]. change (is_meta slash) with false.
      cbn [orb]. fold (has_meta file). rewrite Hfm. now rewrite orb_true_r. }
  cbn [negb]. unfold p. rewrite split_path_last by exact Hf.
  assert (Hc : clean_glob_path (dir ++ [slash]) = dir).
  { unfold clean_glob_path. destruct (dir ++ [slash]) as [|c l] eqn:E.
    - destruct dir; discriminate.
    - destruct l as [|c2 l].
      + destruct dir as [|x [|y dir]]; try discriminate. congruence.
      + rewrite <- E. apply removelast_snoc. }
  rewrite Hc, Ht, Hm. reflexivity.
Qed.
