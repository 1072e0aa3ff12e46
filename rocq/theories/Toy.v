(** Concrete runtime choices and a concrete vault, for the examples beside the
    theorems. *)
From Verif Require Import Base Utf8 GoStrings GoStringsProof Float64 Float64Proof Json Spec_Json JsonPrint
  Crypto Spec_Crypto CryptoProof Path Fs FsProof Domain DomainProof Spec_Domain Repos SessionProof Session Spec_Item
  Spec_Vault Spec_Writer WriterProof.

(** Insertion sort. *)
Fixpoint insert_row (x : simple_item) (l : list simple_item) : list simple_item :=
  match l with
  | [] => [x]
  | y :: l' => if simple_lt y x then y :: insert_row x l' else x :: l
  end.

Definition sort_rows (l : list simple_item) : list simple_item := fold_right insert_row [] l.

Lemma insert_row_perm x l : Permutation (insert_row x l) (x :: l).
Proof.
  induction l as [|y l IH]; simpl; [reflexivity|].
  destruct (simple_lt y x); [|reflexivity]. rewrite IH. constructor.
Qed.

Lemma sort_rows_perm l : Permutation (sort_rows l) l.
Proof.
  induction l as [|x l IH]; [reflexivity|]. cbn [sort_rows fold_right].
  rewrite insert_row_perm. now constructor.
Qed.

Lemma bytes_ltb_asym x y : bytes_ltb x y = true -> bytes_ltb y x = false.
Proof.
  intros H. destruct (bytes_ltb y x) eqn:E; [|reflexivity].
  rewrite <- (bytes_ltb_irrefl x). symmetry. now apply (bytes_ltb_trans x y x).
Qed.

Lemma bytes_ltb_neg_trans x y z : bytes_ltb x y = false -> bytes_ltb y z = false -> bytes_ltb x z = false.
Proof.
  intros H1 H2. destruct (bytes_ltb x z) eqn:E; [|reflexivity].
  destruct (bytes_ltb y x) eqn:E1.
  - rewrite (bytes_ltb_trans y x z E1 E) in H2. discriminate.
  - rewrite (bytes_ltb_total x y H1 E1) in E. congruence.
Qed.

Lemma row_le_total x y : simple_lt y x = true -> row_le y x.
Proof.
  unfold row_le, simple_lt. rewrite (bytes_eqb_sym (cat_code (s_cat y))).
  destruct (bytes_eqb (cat_code (s_cat x)) (cat_code (s_cat y))); intros H; now apply bytes_ltb_asym.
Qed.

Lemma row_le_trans x y z : row_le x y -> row_le y z -> row_le x z.
Proof.
  unfold row_le, simple_lt. intros H1 H2.
  destruct (bytes_eqb (cat_code (s_cat y)) (cat_code (s_cat x))) eqn:E1.
  - apply bytes_eqb_eq in E1. rewrite <- E1 in *. clear E1.
    destruct (bytes_eqb (cat_code (s_cat z)) (cat_code (s_cat y))) eqn:E2; [|exact H2].
    now apply (bytes_ltb_neg_trans _ (s_title y)).
  - destruct (bytes_eqb (cat_code (s_cat z)) (cat_code (s_cat y))) eqn:E2.
    + apply bytes_eqb_eq in E2. rewrite E2, E1. exact H1.
    + assert (H3 : bytes_ltb (cat_code (s_cat z)) (cat_code (s_cat x)) = false)
        by now apply (bytes_ltb_neg_trans _ (cat_code (s_cat y))).
      destruct (bytes_eqb (cat_code (s_cat z)) (cat_code (s_cat x))) eqn:E3; [|exact H3].
      exfalso. apply bytes_eqb_eq in E3. rewrite E3 in *.
      apply bytes_eqb_neq in E1. apply E1. symmetry. now apply bytes_ltb_total.
Qed.

Lemma insert_row_sorted x l : StronglySorted row_le l -> StronglySorted row_le (insert_row x l).
Proof.
  intros H. induction H as [|y l Hl IH Hy]; simpl; [repeat constructor|].
  destruct (simple_lt y x) eqn:E.
  - constructor; [exact IH|]. apply Forall_forall. intros z Hz.
    apply (Permutation_in _ (insert_row_perm x l)) in Hz. destruct Hz as [<-|Hz].
    + now apply row_le_total.
    + rewrite Forall_forall in Hy. now apply Hy.
  - constructor; [now constructor|]. constructor; [exact E|].
    eapply Forall_impl; [|exact Hy]. intros z Hz. now apply (row_le_trans _ y).
Qed.

Lemma sort_rows_sorted l : StronglySorted row_le (sort_rows l).
Proof.
  induction l as [|x l IH]; [constructor|]. cbn [sort_rows fold_right]. now apply insert_row_sorted.
Qed.

(** Maps visited in the order of insertion, and backwards with another placement of
    equal rows. *)
Definition forwards : oracles := {| o_iter l := l; o_sort := sort_rows |}.
Definition backwards : oracles := {| o_iter l := rev l; o_sort l := sort_rows (rev l) |}.

Lemma forwards_ok : oracles_ok forwards.
Proof.
  constructor; simpl; intros; [reflexivity|apply sort_rows_perm|apply sort_rows_sorted].
Qed.

Lemma backwards_ok : oracles_ok backwards.
Proof.
  constructor; simpl; intros; [symmetry; apply Permutation_rev| |apply sort_rows_sorted].
  rewrite sort_rows_perm. symmetry. apply Permutation_rev.
Qed.

(** ** A vault with three items in two bands *)

Definition utc : Z -> Z := fun _ => 0%Z.

Definition demo_secrets : secrets := MkSecrets (b "salt") 1000 (b "master") (b "over").

Definition demo_login : stored :=
  MkStored (b "AA") (b "001") 1300000000 1400000000 false
    [(b "title", JStr (b "Mail")); (b "url", JStr (b "mail.org"))]
    [(b "fields", JArr [JObj [(b "name", JStr (b "user")); (b "value", JStr (b "bob"))]]);
     (b "notesPlain", JStr (b "hi"))]
    (repeat "a"%char 32) (repeat "A"%char 32).

Definition demo_card : stored :=
  MkStored (b "BB") (b "002") 1300000001 1400000001 false
    [(b "title", JStr (b "Visa"))]
    [(b "sections", JArr [JObj [(b "title", JStr (b "main"));
        (b "fields", JArr [JObj [(b "k", JStr (b "string")); (b "t", JStr (b "pin")); (b "v", JStr (b "1234"))]])]])]
    (repeat "b"%char 32) (repeat "B"%char 32).

Definition demo_note : stored :=
  MkStored (b "CC") (b "003") 1300000002 1400000002 true
    [(b "title", JStr (b "old"))] [(b "notesPlain", JStr (b "x"))]
    (repeat "c"%char 32) (repeat "C"%char 32).

Definition demo_bands : list (bytes * list stored) :=
  [(b "band_0.js", [demo_login; demo_note]); (b "band_A.js", [demo_card])].

Definition demo_items : list item :=
  [ MkItem (Cat (b "001") (b "Login")) 1300000000 (b "hi") (b "Mail") false
      [MkSection [] [MkField (b "User") (b "bob")]] (b "AA") (b "mail.org") 1400000000;
    MkItem (Cat (b "003") (b "Secure Note")) 1300000002 (b "x") (b "old") true [] (b "CC") [] 1400000002;
    MkItem (Cat (b "002") (b "Credit Card")) 1300000001 [] (b "Visa") false
      [MkSection (b "Main") [MkField (b "Pin") (b "1234")]] (b "BB") [] 1400000001 ].

Definition demo_disk : disk := write_disk toy_crypto (b "v") (b "freddy") demo_secrets demo_bands.
Definition demo_keys : keys := keys_of toy_crypto (b "freddy") demo_secrets.

Lemma demo_name x : ~ In "/"%char x -> band_name (b "band_" ++ x ++ b ".js").
Proof. intros H. exists x. auto. Qed.

Ltac printables :=
  repeat first
    [ apply pr_obj; [apply nodupb_ok; reflexivity|]
    | apply pr_arr
    | apply pr_str, ascii_valid_utf8; reflexivity
    | apply Forall_cons
    | apply Forall_nil
    | split; [apply ascii_valid_utf8; reflexivity|] ].

Lemma demo_storable : Forall storable [demo_login; demo_note; demo_card].
Proof.
  repeat apply Forall_cons; [| | |constructor].
  all: constructor;
    [ apply ascii_valid_utf8; reflexivity | simpl; auto 8 | unfold in_2_53; simpl; lia
    | unfold in_2_53; simpl; lia | split; reflexivity | | split; reflexivity ].
  all: exists 5; split; [vm_compute; discriminate|]; split; printables.
Qed.

Lemma demo_secrets_ok : secrets_ok demo_secrets.
Proof. constructor; [unfold in_2_53; simpl; lia|reflexivity|reflexivity]. Qed.

Lemma demo_bands_ok : bands_ok demo_bands.
Proof.
  constructor.
  - repeat constructor.
  - repeat apply Forall_cons; [| |constructor]; (split; [|discriminate]).
    + apply (demo_name (b "0")). vm_compute. intuition discriminate.
    + apply (demo_name (b "A")). vm_compute. intuition discriminate.
  - apply nodupb_ok. reflexivity.
  - exact demo_storable.
Qed.

Lemma demo_shown : Forall2 (shown_as latin1 utc) (concat (map snd demo_bands)) demo_items.
Proof.
  unfold demo_items. cbn [concat map snd demo_bands app].
  repeat apply Forall2_cons; [| | |constructor].
  - constructor; try (split; [reflexivity|]); try reflexivity; try (simpl; auto 8; fail);
      try (right; reflexivity).
    cbn [it_sections].
    change [MkSection [] [MkField (b "User") (b "bob")]] with
      (match [MkField (b "User") (b "bob")] with [] => [] | _ => [MkSection [] [MkField (b "User") (b "bob")]] end).
    apply (shows_body_form latin1 utc (w_details demo_login)
      [JObj [(b "name", JStr (b "user")); (b "value", JStr (b "bob"))]] [MkField (b "User") (b "bob")]);
      [left; reflexivity|reflexivity|].
    change [MkField (b "User") (b "bob")] with ([MkField (b "User") (b "bob")] ++ []).
    apply shows_cons; [|constructor].
    apply (shows_form_some latin1 _ (b "user") (b "bob")); try reflexivity; discriminate.
  - constructor; try (split; [reflexivity|]); try reflexivity; try (simpl; auto 8; fail);
      try (right; reflexivity); try (left; split; [left; reflexivity|reflexivity]).
    apply shows_body_none; left; reflexivity.
  - constructor; try (split; [reflexivity|]); try reflexivity; try (simpl; auto 8; fail);
      try (right; reflexivity); try (left; split; [left; reflexivity|reflexivity]).
    eapply (shows_body_sections latin1 utc (w_details demo_card)); [reflexivity|].
    cbn [it_sections].
    change [MkSection (b "Main") [MkField (b "Pin") (b "1234")]] with
      ([MkSection (b "Main") [MkField (b "Pin") (b "1234")]] ++ []).
    apply shows_cons; [|constructor].
    apply shows_section_some; [| |left; discriminate].
    + apply (shows_title_some latin1 _ (b "main")). reflexivity.
    + eapply shows_fields_some; [reflexivity|].
      change [MkField (b "Pin") (b "1234")] with ([MkField (b "Pin") (b "1234")] ++ []).
      apply shows_cons; [|constructor].
      apply (shows_field_some latin1 utc _ (b "string") (b "pin") (JStr (b "1234"))); try reflexivity.
      apply shows_text. vm_compute. intuition discriminate.
Qed.

Lemma demo_dir_plain : plain_name (b "v").
Proof. split; [repeat split; discriminate|]. vm_compute. intuition discriminate. Qed.

Lemma demo_vault :
  vault_at toy_crypto latin1 utc demo_disk (b "/v") (b "freddy") demo_keys demo_items.
Proof.
  apply (written_vault toy_crypto toy_crypto_ok latin1 utc (b "v") demo_dir_plain).
  - repeat (constructor; [vm_compute; intuition discriminate|]). constructor.
  - exact demo_secrets_ok.
  - exact demo_bands_ok.
  - exact demo_shown.
Qed.
