(** Byte strings, outcomes of a Go computation, and Go maps.

    Nothing here models a particular file of /repo: these are the data types in
    which the rest of the model is written. *)
From Coq Require Export Ascii String.
From Coq Require Export List Arith ZArith NArith Lia Bool Permutation Sorted.
From Coq Require Export ZifyBool.
Export ListNotations.
Open Scope list_scope.

(** A Go [string] or [[]byte]: a finite sequence of bytes. *)
Notation bytes := (list ascii).

(** Literals: [b "abc"]. *)
Definition b (s : string) : bytes := list_ascii_of_string s.

(** Numeric value of a byte and back. *)
Definition vb (c : ascii) : N := N_of_ascii c.
Definition bv (n : N) : ascii := ascii_of_N n.

Fixpoint bytes_eqb (x y : bytes) : bool :=
  match x, y with
  | [], [] => true
  | c :: x', d :: y' => Ascii.eqb c d && bytes_eqb x' y'
  | _, _ => false
  end.

(** Go's [<] on strings: lexicographic on bytes. *)
Fixpoint bytes_ltb (x y : bytes) : bool :=
  match x, y with
  | [], [] => false
  | [], _ :: _ => true
  | _ :: _, [] => false
  | c :: x', d :: y' =>
      if Ascii.eqb c d then bytes_ltb x' y' else (vb c <? vb d)%N
  end.

(** Outcome of running Go code: a value, a panic (run-time error that ends the
    program with status 2), or [os.Exit]/[log.Fatalln] (status 1). *)
Inductive res (A : Type) : Type :=
| Ok (a : A)
| Panic
| Exit (code : nat).
Arguments Ok {A} a.
Arguments Panic {A}.
Arguments Exit {A} code.

(** [log.Fatalln]. *)
Definition fatal {A} : res A := Exit 1.

Definition rbind {A B} (x : res A) (f : A -> res B) : res B :=
  match x with
  | Ok a => f a
  | Panic => Panic
  | Exit n => Exit n
  end.

Declare Scope res_scope.
Delimit Scope res_scope with res.
Notation "x <- e ;; k" := (rbind e (fun x => k))
  (at level 61, e at next level, right associativity) : res_scope.
Notation "' p <- e ;; k" := (rbind e (fun p => k))
  (at level 61, p pattern, e at next level, right associativity) : res_scope.

Fixpoint rmap {A B} (f : A -> res B) (l : list A) : res (list B) :=
  match l with
  | [] => Ok []
  | x :: l' =>
      rbind (f x) (fun y => rbind (rmap f l') (fun ys => Ok (y :: ys)))
  end.

(** Error values of /repo/1pass-core/core/domain/error.go:12-19, and errors of
    the standard library, of which only the text matters. *)
Inductive goerr : Type :=
| ErrInvalidMd5
| ErrInvalidHmac
| ErrInvalidPass
| ErrInvalidVault (msg : bytes)
| ErrNoUpdate
| ErrUnknownDataType
| ErrUnknownItemCat
| ErrUnknownLogicVal
| ErrOther (msg : bytes).

(** The text printed for an error ([err.Error()]), error.go:12-19;
    [ErrInvalidVault] is a format filled in by vaultservice.go:33-55. *)
Definition err_text (e : goerr) : bytes :=
  match e with
  | ErrInvalidMd5 => b "invalid MD5 checksum"
  | ErrInvalidHmac => b "invalid HMAC"
  | ErrInvalidPass => b "invalid password"
  | ErrInvalidVault m => b "invalid vault (" ++ m ++ b ")"
  | ErrNoUpdate => b "up to date"
  | ErrUnknownDataType => b "unknown data type"
  | ErrUnknownItemCat => b "unknown item category"
  | ErrUnknownLogicVal => b "unknown logic value"
  | ErrOther m => m
  end.

(** A call returning [(A, error)]. *)
Inductive eres (A : Type) : Type :=
| Val (a : A)
| Err (e : goerr).
Arguments Val {A} a.
Arguments Err {A} e.

(** Go maps with string keys.  A map is an association list without repeated
    keys; [mset] overwrites in place or appends. *)
Definition gmap (V : Type) := list (bytes * V).

Fixpoint mget {V} (k : bytes) (m : gmap V) : option V :=
  match m with
  | [] => None
  | (k', v) :: m' => if bytes_eqb k k' then Some v else mget k m'
  end.

Fixpoint mset {V} (k : bytes) (v : V) (m : gmap V) : gmap V :=
  match m with
  | [] => [(k, v)]
  | (k', v') :: m' =>
      if bytes_eqb k k' then (k, v) :: m' else (k', v') :: mset k v m'
  end.

(** * Lemmas *)

Lemma bytes_eqb_eq x y : bytes_eqb x y = true <-> x = y.
Proof.
  revert y; induction x as [|c x IH]; intros [|d y]; simpl;
    try (split; congruence).
  rewrite andb_true_iff, Ascii.eqb_eq, IH. split.
  - intros [-> ->]; reflexivity.
  - intros [= -> ->]; auto.
Qed.

Lemma bytes_eqb_refl x : bytes_eqb x x = true.
Proof. apply bytes_eqb_eq; reflexivity. Qed.

Lemma bytes_eqb_neq x y : bytes_eqb x y = false <-> x <> y.
Proof.
  rewrite <- bytes_eqb_eq. destruct (bytes_eqb x y); split; congruence.
Qed.

Lemma bytes_eqb_sym x y : bytes_eqb x y = bytes_eqb y x.
Proof.
  destruct (bytes_eqb x y) eqn:E; symmetry.
  - apply bytes_eqb_eq in E; subst; apply bytes_eqb_refl.
  - apply bytes_eqb_neq; apply bytes_eqb_neq in E; congruence.
Qed.

Definition bytes_eq_dec (x y : bytes) : {x = y} + {x <> y}.
Proof.
  destruct (bytes_eqb x y) eqn:E; [left|right].
  - apply bytes_eqb_eq; assumption.
  - apply bytes_eqb_neq; assumption.
Defined.

Lemma vb_inj c d : vb c = vb d -> c = d.
Proof.
  unfold vb; intros H.
  rewrite <- (ascii_N_embedding c), <- (ascii_N_embedding d), H; reflexivity.
Qed.

Lemma vb_lt c : (vb c < 256)%N.
Proof. apply N_ascii_bounded. Qed.

Lemma bv_vb c : bv (vb c) = c.
Proof. apply ascii_N_embedding. Qed.

Lemma vb_bv n : (n < 256)%N -> vb (bv n) = n.
Proof. apply N_ascii_embedding. Qed.

Lemma bytes_ltb_irrefl x : bytes_ltb x x = false.
Proof. induction x as [|c x IH]; simpl; [reflexivity|]. now rewrite Ascii.eqb_refl. Qed.

Lemma bytes_ltb_trans x y z :
  bytes_ltb x y = true -> bytes_ltb y z = true -> bytes_ltb x z = true.
Proof.
  revert y z; induction x as [|c x IH]; intros [|d y] [|e z]; simpl; try congruence.
  destruct (Ascii.eqb_spec c d), (Ascii.eqb_spec d e), (Ascii.eqb_spec c e);
    subst; try congruence; eauto; try rewrite !N.ltb_lt; try lia.
Qed.

Lemma bytes_ltb_total x y : bytes_ltb x y = false -> bytes_ltb y x = false -> x = y.
Proof.
  revert y; induction x as [|c x IH]; intros [|d y]; simpl; try congruence.
  rewrite (Ascii.eqb_sym d c).
  destruct (Ascii.eqb_spec c d) as [->|Hn].
  - intros; f_equal; auto.
  - rewrite !N.ltb_ge; intros. exfalso; apply Hn, vb_inj; lia.
Qed.

Lemma mget_In {V} k (m : gmap V) v : mget k m = Some v -> In (k, v) m.
Proof.
  induction m as [|[k' v'] m IH]; simpl; [congruence|].
  destruct (bytes_eqb k k') eqn:E.
  - apply bytes_eqb_eq in E; intros [= ->]; subst; auto.
  - auto.
Qed.

Lemma In_mget {V} k (m : gmap V) v :
  NoDup (map fst m) -> In (k, v) m -> mget k m = Some v.
Proof.
  induction m as [|[k' v'] m IH]; simpl; [tauto|].
  intros Hnd [[= <- <-]|Hin]; [now rewrite bytes_eqb_refl|].
  inversion Hnd as [|? ? Hni Hnd']; subst.
  destruct (bytes_eqb k k') eqn:E; [|auto].
  apply bytes_eqb_eq in E; subst. exfalso; apply Hni.
  apply (in_map fst) in Hin; exact Hin.
Qed.

Lemma mget_None {V} k (m : gmap V) : mget k m = None <-> ~ In k (map fst m).
Proof.
  induction m as [|[k' v'] m IH]; simpl; [tauto|].
  destruct (bytes_eqb k k') eqn:E.
  - apply bytes_eqb_eq in E; subst; split; [congruence|tauto].
  - apply bytes_eqb_neq in E. rewrite IH. intuition.
Qed.

Lemma mget_mset {V} k k' (v : V) m :
  mget k (mset k' v m) = if bytes_eqb k k' then Some v else mget k m.
Proof.
  induction m as [|[k2 v2] m IH]; simpl.
  - reflexivity.
  - destruct (bytes_eqb k' k2) eqn:E; simpl.
    + apply bytes_eqb_eq in E; subst. now destruct (bytes_eqb k k2).
    + destruct (bytes_eqb k k2) eqn:E2.
      * apply bytes_eqb_eq in E2; subst.
        now rewrite (bytes_eqb_sym k2 k'), E.
      * exact IH.
Qed.

Lemma mset_keys {V} k (v : V) m :
  map fst (mset k v m) =
  map fst m ++ (if existsb (bytes_eqb k) (map fst m) then [] else [k]).
Proof.
  induction m as [|[k2 v2] m IH]; simpl; [reflexivity|].
  destruct (bytes_eqb k k2) eqn:E; simpl.
  - apply bytes_eqb_eq in E; subst. now rewrite app_nil_r.
  - now rewrite IH.
Qed.

Lemma mset_NoDup {V} k (v : V) m :
  NoDup (map fst m) -> NoDup (map fst (mset k v m)).
Proof.
  intros H. rewrite mset_keys.
  destruct (existsb (bytes_eqb k) (map fst m)) eqn:E.
  - now rewrite app_nil_r.
  - apply Permutation_NoDup with (l := k :: map fst m).
    + rewrite Permutation_app_comm. reflexivity.
    + constructor; [|exact H]. intros Hin.
      assert (existsb (bytes_eqb k) (map fst m) = true); [|congruence].
      apply existsb_exists; exists k; split; [exact Hin|apply bytes_eqb_refl].
Qed.

Lemma mget_perm {V} k (m m' : gmap V) :
  NoDup (map fst m) -> Permutation m m' -> mget k m = mget k m'.
Proof.
  intros Hnd Hp.
  assert (Hnd' : NoDup (map fst m')).
  { apply (Permutation_map fst) in Hp. eapply Permutation_NoDup; eauto. }
  destruct (mget k m) eqn:E.
  - apply mget_In in E. symmetry; apply In_mget; [exact Hnd'|].
    eapply Permutation_in; eauto.
  - symmetry. apply mget_None. apply mget_None in E. intros Hin; apply E.
    apply (Permutation_map fst) in Hp. eapply Permutation_in; [symmetry; exact Hp|exact Hin].
Qed.

Lemma rmap_ok {A B} (f : A -> res B) l ys :
  rmap f l = Ok ys <-> Forall2 (fun x y => f x = Ok y) l ys.
Proof.
  revert ys; induction l as [|x l IH]; simpl; intros ys.
  - split; [intros [= <-]; constructor|inversion 1; reflexivity].
  - split.
    + destruct (f x) eqn:E; simpl; try congruence.
      destruct (rmap f l) eqn:E2; simpl; try congruence.
      intros [= <-]; constructor; [exact E|]. now apply IH.
    + inversion 1 as [|? y ? ys' Hx Hl]; subst. rewrite Hx; simpl.
      apply IH in Hl; rewrite Hl; reflexivity.
Qed.

Lemma rmap_pure {A B} (f : A -> res B) (g : A -> B) l :
  (forall x, In x l -> f x = Ok (g x)) -> rmap f l = Ok (map g l).
Proof.
  induction l as [|x l IH]; simpl; intros H; [reflexivity|].
  rewrite H by auto; simpl. rewrite IH by auto; reflexivity.
Qed.

Lemma firstn_app_exact {A} (x y : list A) n : n = length x -> firstn n (x ++ y) = x.
Proof.
  intros ->. rewrite firstn_app, Nat.sub_diag, firstn_all; simpl. apply app_nil_r.
Qed.

Lemma skipn_app_exact {A} (x y : list A) n : n = length x -> skipn n (x ++ y) = y.
Proof.
  intros ->. rewrite skipn_app, Nat.sub_diag, skipn_all; reflexivity.
Qed.
