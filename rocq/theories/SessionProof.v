(** Invariants of the vault facade and the laws of its queries. *)
From Verif Require Import Base Utf8 GoStrings GoStringsProof Base64 Float64 Json JsonProof Crypto
  CryptoProof Path Fs Domain DomainProof Spec_Domain KeyService Repos ItemService Session.

(** ** Sorting the shared category list *)

Lemma insert_cat_perm c l : Permutation (insert_cat c l) (c :: l).
Proof.
  induction l as [|d l IH]; simpl; [reflexivity|].
  destruct (bytes_ltb (cat_code d) (cat_code c)); [|reflexivity].
  rewrite IH. constructor.
Qed.

Lemma sort_cats_perm l : Permutation (sort_cats l) l.
Proof.
  induction l as [|c l IH]; [reflexivity|]. cbn [sort_cats fold_right].
  rewrite insert_cat_perm. now constructor.
Qed.

Definition code_lt (x y : category) : Prop := bytes_ltb (cat_code x) (cat_code y) = true.

Lemma insert_cat_sorted c l :
  StronglySorted code_lt l -> ~ In (cat_code c) (map cat_code l) ->
  StronglySorted code_lt (insert_cat c l).
Proof.
  intros H. induction H as [|d l Hl IH Hd]; intros Hn; simpl.
  - repeat constructor.
  - simpl in Hn. destruct (bytes_ltb (cat_code d) (cat_code c)) eqn:E.
    + constructor; [apply IH; tauto|].
      rewrite Forall_forall in *. intros x Hx.
      apply (Permutation_in _ (insert_cat_perm c l)) in Hx.
      destruct Hx as [<-|Hx]; [exact E|now apply Hd].
    + assert (Hcd : code_lt c d).
      { unfold code_lt. destruct (bytes_ltb (cat_code c) (cat_code d)) eqn:E2; [reflexivity|].
        exfalso. apply Hn. left. now apply bytes_ltb_total. }
      constructor; [constructor; assumption|]. constructor; [exact Hcd|].
      rewrite Forall_forall in *. intros x Hx. specialize (Hd x Hx).
      unfold code_lt in *. eapply bytes_ltb_trans; eauto.
Qed.

Lemma sort_cats_sorted l : NoDup (map cat_code l) -> StronglySorted code_lt (sort_cats l).
Proof.
  induction l as [|c l IH]; intros H; [constructor|]. inversion H as [|? ? Hn Hd]; subst.
  cbn [sort_cats fold_right]. apply insert_cat_sorted; [now apply IH|].
  intros Hin. apply Hn. eapply Permutation_in; [|exact Hin].
  apply Permutation_map, sort_cats_perm.
Qed.

(** Sorting keeps lookups. *)
Lemma cat_from_code_perm reg reg' s :
  Permutation reg registry -> Permutation reg' registry ->
  cat_from_code reg s = cat_from_code reg' s.
Proof.
  intros H H'.
  destruct (cat_from_code_spec reg s H) as [H1 H2].
  destruct (cat_from_code_spec reg' s H') as [H1' H2'].
  destruct (cat_from_code reg s) as [c|e] eqn:E.
  - symmetry. apply H1'. now apply H1.
  - destruct (cat_from_code reg' s) as [c|e'] eqn:E'.
    + assert (X : Err e = Val c) by (apply H1; now apply H1'). discriminate.
    + unfold cat_from_code in E, E'.
      destruct (find _ reg); [discriminate|]. destruct (find _ reg'); [discriminate|]. congruence.
Qed.

Lemma cat_from_name_perm U reg reg' s :
  Permutation reg registry -> Permutation reg' registry ->
  cat_from_name U reg s = cat_from_name U reg' s.
Proof.
  intros H H'.
  destruct (cat_from_name_spec U reg s H) as [H1 H2].
  destruct (cat_from_name_spec U reg' s H') as [H1' H2'].
  destruct (cat_from_name U reg s) as [c|e] eqn:E.
  - symmetry. apply H1'. now apply H1.
  - destruct (cat_from_name U reg' s) as [c|e'] eqn:E'.
    + assert (X : Err e = Val c) by (apply H1; now apply H1'). discriminate.
    + unfold cat_from_name in E, E'.
      destruct (find _ reg); [discriminate|]. destruct (find _ reg'); [discriminate|]. congruence.
Qed.

(** ** rmap and somes *)

Lemma rbind_ok {A B} (e : res A) (k : A -> res B) y :
  rbind e k = Ok y -> exists x, e = Ok x /\ k x = Ok y.
Proof. destruct e; cbn [rbind]; try discriminate. eauto. Qed.

Lemma rmap_inv {A B} (f : A -> res B) l ys :
  rmap f l = Ok ys -> Forall2 (fun x y => f x = Ok y) l ys.
Proof. apply rmap_ok. Qed.

Lemma rmap_perm {A B} (f : A -> res B) l l' ys :
  Permutation l l' -> rmap f l = Ok ys ->
  exists ys', rmap f l' = Ok ys' /\ Permutation ys ys'.
Proof.
  intros Hp H. apply rmap_inv in H.
  destruct (Permutation_Forall2 Hp H) as (ys' & Hp' & H').
  exists ys'. split; [now apply rmap_ok|exact Hp'].
Qed.

Lemma somes_perm {A} (l l' : list (option A)) : Permutation l l' -> Permutation (somes l) (somes l').
Proof.
  intros H. induction H as [|[x|] l l' H IH|[x|] [y|] l|l l' l'' H1 IH1 H2 IH2]; simpl; auto.
  - constructor.
  - now transitivity (somes l').
Qed.

Lemma somes_in {A} (l : list (option A)) x : In x (somes l) <-> In (Some x) l.
Proof.
  induction l as [|[y|] l IH]; simpl; [tauto| |].
  - rewrite IH. split; [intros [->|]; auto|intros [[= ->]|]; auto].
  - rewrite IH. split; [auto|intros [|]; [discriminate|auto]].
Qed.

Section Session.
Variable C : crypto.
Variable U : unicode.
Variable tz : Z -> Z.

(** ** What an unlock can have stored *)

(** uids come from the keys of one map *)
Lemma raw_of_entry_uid kv r : raw_of_entry kv = Ok r -> r_uid r = fst kv.
Proof.
  unfold raw_of_entry. intros H.
  repeat match type of H with
  | rbind _ _ = Ok _ => apply rbind_ok in H; destruct H as (? & _ & H)
  end. injection H as <-. reflexivity.
Qed.

Lemma load_items_nodup O D v raws :
  oracles_ok O -> load_items O D v = Ok raws -> NoDup (map r_uid raws).
Proof.
  intros HO. unfold load_items.
  destruct (glob D (bands_glob v)) as [[|f fl]|]; [intros [= <-]; constructor| |discriminate].
  intros H. apply rbind_ok in H. destruct H as (text & _ & H). cbn zeta in H.
  destruct (unmarshal_map _) as [[m|] [|]] eqn:E; try discriminate;
    [|injection H as <-; constructor].
  apply unmarshal_map_NoDup in E. apply rmap_inv in H.
  assert (E2 : map r_uid raws = map fst (o_iter O m)).
  { clear -H. induction H as [|kv r l l' H1 H2 IH]; [reflexivity|]. simpl.
    apply raw_of_entry_uid in H1. congruence. }
  rewrite E2. eapply Permutation_NoDup; [|exact E].
  apply Permutation_map. symmetry. apply (iter_perm O HO).
Qed.

(** Everything about an item that is not decrypted. *)
Lemma decode_item_meta reg ks raw i :
  decode_item C U tz reg ks raw = Ok (Some i) ->
  cat_from_code reg (r_cat raw) = Val (it_cat i) /\ it_uid i = r_uid raw /\
  it_trashed i = r_trashed raw /\ it_created i = r_created raw /\ it_updated i = r_updated raw.
Proof.
  unfold decode_item. destruct (cat_from_code reg (r_cat raw)) as [c|e]; [|discriminate].
  intros H.
  repeat match type of H with
  | rbind _ _ = Ok _ => apply rbind_ok in H; destruct H as (? & _ & H)
  end. injection H as <-. simpl. auto.
Qed.

Lemma decode_item_none reg ks raw :
  decode_item C U tz reg ks raw = Ok None <-> exists e, cat_from_code reg (r_cat raw) = Err e.
Proof.
  unfold decode_item. destruct (cat_from_code reg (r_cat raw)) as [c|e]; split; eauto.
  - intros H.
    repeat match type of H with
    | rbind _ _ = Ok _ => apply rbind_ok in H; destruct H as (? & _ & H)
    end. discriminate.
  - intros (e & H). discriminate.
Qed.

Lemma somes_uids reg ks raws l :
  Forall2 (fun r o => decode_item C U tz reg ks r = Ok o) raws l ->
  NoDup (map r_uid raws) -> NoDup (map it_uid (somes l)) /\
  forall u, In u (map it_uid (somes l)) -> In u (map r_uid raws).
Proof.
  intros H. induction H as [|r o raws l H1 H2 IH]; intros Hn; simpl.
  - split; [constructor|tauto].
  - inversion Hn as [|? ? Hr Hn']; subst. specialize (IH Hn'). destruct IH as [IH1 IH2].
    destruct o as [i|]; simpl.
    + apply decode_item_meta in H1. destruct H1 as (_ & Hu & _). rewrite Hu. split.
      * constructor; auto.
      * intros u [->|Hin]; auto.
    + split; auto.
Qed.

Lemma decode_items_wf O D reg v ks l :
  oracles_ok O -> Permutation reg registry -> decode_items C U tz O D reg v ks = Ok l ->
  NoDup (map it_uid l) /\ Forall (fun i => In (it_cat i) registry) l.
Proof.
  intros HO Hreg H. unfold decode_items in H.
  apply rbind_ok in H. destruct H as (raws & Hr & H).
  apply rbind_ok in H. destruct H as (os & Hd & H). injection H as <-.
  apply load_items_nodup in Hr; [|exact HO]. apply rmap_inv in Hd.
  split; [now apply (somes_uids _ _ _ _ Hd)|].
  rewrite Forall_forall. intros i Hi. apply somes_in in Hi.
  clear Hr. induction Hd as [|r o raws os H1 H2 IH]; [destruct Hi|].
  destruct Hi as [->|Hi]; [|auto].
  apply decode_item_meta in H1. destruct H1 as (Hc & _).
  apply (cat_from_code_spec reg (r_cat r) Hreg) in Hc.
  now apply in_published.
Qed.

(** ** The invariant of every reachable state *)

Record inv (s : state) : Prop := {
  inv_reg : Permutation (st_reg s) registry;
  inv_locked : st_keys s = None -> st_items s = None;
  inv_unlocked : st_keys s <> None -> st_items s <> None;
  inv_uids : NoDup (map it_uid (items_list (st_items s)));
  inv_cats : Forall (fun i => In (it_cat i) registry) (items_list (st_items s));
}.

Lemma inv_init : inv init.
Proof.
  constructor; simpl; auto using Permutation_refl; try constructor; congruence.
Qed.

Lemma inv_step O D o s s' r :
  oracles_ok O -> inv s -> step C U tz O D o s = Ok (s', r) -> inv s'.
Proof.
  intros HO [H1 H2 H2' H3 H4] H. destruct o; simpl in H.
  - apply rbind_ok in H. destruct H as ([s1 e] & H & E). injection E as <- <-.
    cbn [fst snd]. unfold validate in H.
    destruct (stat D vault) as [[c m|]|].
    1,3: injection H as <- <-; constructor; assumption.
    destruct (stat D (profile_path vault)) as [[c m|]|].
    + apply rbind_ok in H. destruct H as (p & _ & E). injection E as <- <-. constructor; assumption.
    + injection H as <- <-; constructor; assumption.
    + injection H as <- <-; constructor; assumption.
  - apply rbind_ok in H. destruct H as ([s1 e] & H & E). injection E as <- <-.
    cbn [fst snd]. unfold unlock in H. apply rbind_ok in H. destruct H as (mk & _ & H).
    destruct mk as [ks|]; [|injection H as <- <-; constructor; assumption].
    apply rbind_ok in H. destruct H as (items & Hi & E). injection E as <- <-.
    apply decode_items_wf in Hi; [|exact HO|exact H1]. destruct Hi as [Hu Hc].
    constructor; cbn [st_reg st_keys st_items]; [exact H1|discriminate| | |].
    + intros _. destruct (st_items s); discriminate.
    + destruct (st_items s); assumption.
    + destruct (st_items s); assumption.
  - injection H as <- <-. constructor; simpl; auto; constructor.
  - injection H as <- <-. constructor; assumption.
  - injection H as <- <-. constructor; assumption.
  - injection H as <- <-. constructor; assumption.
  - injection H as <- <-. constructor; assumption.
  - injection H as <- <-. constructor; simpl; try assumption.
    now rewrite sort_cats_perm.
Qed.

Lemma inv_run h : forall s s' r, honest h -> inv s -> run C U tz h s = Ok (s', r) -> inv s'.
Proof.
  induction h as [|[[O D] o] h IH]; intros s s' r Hh Hi H; simpl in H.
  - injection H as <- <-. exact Hi.
  - inversion Hh as [|? ? HO Hh']; subst. simpl in HO.
    apply rbind_ok in H. destruct H as ([s1 r1] & H1 & H).
    apply rbind_ok in H. destruct H as ([s2 r2] & H2 & H). injection H as <- <-.
    simpl. eapply IH; [exact Hh'| |exact H2]. eapply inv_step; eauto.
Qed.

Lemma reachable_inv s : reachable C U tz s -> inv s.
Proof. intros (h & r & Hh & H). exact (inv_run h init s r Hh inv_init H). Qed.

(** ** Queries *)

Definition is_query (o : op) : Prop :=
  match o with
  | OpIsUnlocked | OpCount _ _ | OpGetItem _ _ | OpGetItems _ _ _ => True
  | _ => False
  end.

Lemma query_pure O D q s s' r :
  is_query q -> step C U tz O D q s = Ok (s', r) -> s' = s.
Proof. destruct q; simpl; try tauto; intros _ H; congruence. Qed.

Lemma query_ok O D q s : is_query q -> exists r, step C U tz O D q s = Ok (s, r).
Proof. destruct q; simpl; try tauto; eauto. Qed.

Lemma unlock_error_state O D v p s s' e :
  unlock C U tz O D v p s = Ok (s', Some e) -> s' = s /\ e = ErrInvalidPass.
Proof.
  unfold unlock. intros H. apply rbind_ok in H. destruct H as ([ks|] & _ & H).
  - apply rbind_ok in H. destruct H as (? & _ & H). discriminate.
  - injection H as <- <-. auto.
Qed.

Lemma find_by_spec cat t tr items i :
  In i (find_by U cat t tr items) <->
  In i (items_list items) /\ cat_matches cat i = true /\ it_trashed i = tr /\
  exists p q, to_lower U (it_title i) = p ++ to_lower U t ++ q.
Proof.
  unfold find_by. rewrite filter_In, !andb_true_iff, Bool.eqb_true_iff.
  assert (H : (match to_lower U t with [] => true | _ => contains (to_lower U (it_title i)) (to_lower U t) end) = true
     <-> exists p q, to_lower U (it_title i) = p ++ to_lower U t ++ q).
  { rewrite <- contains_spec. destruct (to_lower U t) as [|c l] eqn:E.
    - rewrite contains_nil. reflexivity.
    - reflexivity. }
  rewrite H. tauto.
Qed.

Lemma get_items_perm O cat t tr s :
  oracles_ok O -> Permutation (get_items U O cat t tr s) (map simple_of (find_by U cat t tr (st_items s))).
Proof. intros HO. apply (sort_perm O HO). Qed.

(** find on a list with unique keys does not depend on the order *)
Lemma find_unique {A} (p : A -> bool) l x :
  In x l -> p x = true -> (forall y, In y l -> p y = true -> y = x) -> find p l = Some x.
Proof.
  intros Hin Hp Hu. destruct (find p l) as [y|] eqn:E.
  - apply find_some in E. destruct E as [E1 E2]. f_equal. now apply Hu.
  - apply (find_none p l E x) in Hin. congruence.
Qed.

Lemma nodup_uid_eq l i j :
  NoDup (map it_uid l) -> In i l -> In j l -> it_uid i = it_uid j -> i = j.
Proof. apply nodup_map_inj. Qed.

Lemma find_first_spec u tr items i :
  NoDup (map it_uid (items_list items)) ->
  (find_first u tr items = Some i <->
   In i (items_list items) /\ it_uid i = u /\ it_trashed i = tr).
Proof.
  intros Hn. unfold find_first. split.
  - intros H. apply find_some in H. destruct H as [H1 H2].
    rewrite andb_true_iff, bytes_eqb_eq, Bool.eqb_true_iff in H2. tauto.
  - intros (H1 & H2 & H3). apply find_unique.
    + exact H1.
    + rewrite andb_true_iff, bytes_eqb_eq, Bool.eqb_true_iff. auto.
    + intros j Hj Hp. rewrite andb_true_iff, bytes_eqb_eq, Bool.eqb_true_iff in Hp.
      apply (nodup_uid_eq _ j i Hn Hj H1). destruct Hp. congruence.
Qed.

End Session.

(** ** Sorted rows *)

Lemma simple_lt_irrefl_key x y :
  simple_lt x y = false -> simple_lt y x = false ->
  cat_code (s_cat x) = cat_code (s_cat y) /\ s_title x = s_title y.
Proof.
  unfold simple_lt. intros H1 H2.
  rewrite (bytes_eqb_sym (cat_code (s_cat y))) in H2.
  destruct (bytes_eqb (cat_code (s_cat x)) (cat_code (s_cat y))) eqn:E.
  - apply bytes_eqb_eq in E. split; [exact E|]. now apply bytes_ltb_total.
  - exfalso. apply bytes_eqb_neq in E. apply E. now apply bytes_ltb_total.
Qed.

Definition row_key (x : simple_item) : bytes * bytes := (cat_code (s_cat x), s_title x).

Definition row_le (x y : simple_item) : Prop := simple_lt y x = false.

Lemma simple_lt_key x y x' y' :
  row_key x = row_key x' -> row_key y = row_key y' -> simple_lt x y = simple_lt x' y'.
Proof. unfold row_key, simple_lt. intros [= -> ->] [= -> ->]. reflexivity. Qed.

(** Two ascending arrangements of the same keys are equal. *)
Lemma sorted_rows_unique l : forall l',
  StronglySorted row_le l -> StronglySorted row_le l' ->
  Permutation (map row_key l) (map row_key l') -> map row_key l = map row_key l'.
Proof.
  induction l as [|x l IH]; intros l' Hl Hl' Hp.
  - apply Permutation_nil in Hp. now rewrite Hp.
  - destruct l' as [|y l'].
    { symmetry in Hp. apply Permutation_nil in Hp. discriminate. }
    inversion Hl as [|? ? Hl1 Hx]; subst. inversion Hl' as [|? ? Hl1' Hy]; subst.
    rewrite Forall_forall in Hx, Hy.
    assert (Hk : row_key x = row_key y).
    { assert (A1 : In (row_key x) (map row_key (y :: l'))) by (eapply Permutation_in; [exact Hp|now left]).
      assert (A2 : In (row_key y) (map row_key (x :: l))) by (eapply Permutation_in; [symmetry; exact Hp|now left]).
      simpl in A1, A2.
      destruct A1 as [A1|A1]; [congruence|]. destruct A2 as [A2|A2]; [congruence|].
      apply in_map_iff in A1. destruct A1 as (x' & K1 & I1).
      apply in_map_iff in A2. destruct A2 as (y' & K2 & I2).
      specialize (Hx _ I2). specialize (Hy _ I1). unfold row_le in *.
      rewrite (simple_lt_key y' x y x) in Hx by auto.
      rewrite (simple_lt_key x' y x y) in Hy by auto.
      destruct (simple_lt_irrefl_key x y Hy Hx) as [K3 K4]. unfold row_key. congruence. }
    cbn [map] in *. rewrite Hk in Hp |- *. f_equal.
    apply IH; auto. eapply Permutation_cons_inv; eauto.
Qed.
