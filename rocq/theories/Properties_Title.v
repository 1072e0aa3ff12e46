(** What capitalising does to a text of ASCII characters (C42). *)
From Verif Require Import Base Utf8 GoStrings GoStringsProof.

(** ** Specification *)

Definition small_letter (c : ascii) : bool := (97 <=? vb c)%N && (vb c <=? 122)%N.
Definition capital (c : ascii) : ascii := if small_letter c then bv (vb c - 32) else c.

(** Letters, digits and the underscore. *)
Definition in_word (c : ascii) : Prop :=
  (97 <= vb c <= 122 \/ 65 <= vb c <= 90 \/ 48 <= vb c <= 57 \/ vb c = 95)%N.

(** A word starts where the text starts and behind every character that is not in a word. *)
Definition word_starts (s : bytes) (n : nat) : Prop :=
  match n with 0 => True | S m => exists c, nth_error s m = Some c /\ ~ in_word c end.

(** ** Lemmas *)

Lemma separator_word U c : (vb c < 128)%N -> is_separator U (vb c) = true <-> ~ in_word c.
Proof.
  intros H. unfold is_separator, is_digit_rune, is_lower_ascii, is_upper_ascii, in_range, in_word. replace (vb c <? 128)%N with true by lia.
  rewrite negb_true_iff. lia.
Qed.

Lemma title_capital U c : (vb c < 128)%N -> rune_title U (vb c) = vb (capital c).
Proof.
  intros H. unfold rune_title, capital, small_letter, is_lower_ascii, in_range. replace (vb c <? 128)%N with true by lia.
  destruct ((97 <=? vb c) && (vb c <=? 122))%N eqn:E; [|reflexivity]. rewrite vb_bv by lia. reflexivity.
Qed.

Lemma title_at U s : forall p, Forall (fun c => vb c < 128)%N s ->
  exists t, title_runes U p (map vb s) = map vb t /\ Forall (fun c => vb c < 128)%N t /\ length t = length s /\
    forall n c, nth_error s n = Some c ->
      nth_error t n = Some (if is_separator U (match n with 0 => p | S m => match nth_error s m with Some x => vb x | None => 0%N end end) then capital c else c).
Proof.
  induction s as [|c s IH]; intros p H.
  - exists []. split; [reflexivity|]. split; [constructor|]. split; [reflexivity|]. intros [|n] x Hx; discriminate Hx.
  - inversion H as [|? ? Hc Hs]; subst. destruct (IH (vb c) Hs) as (t & E & Ft & L & Hn).
    exists ((if is_separator U p then capital c else c) :: t). cbn [map title_runes]. rewrite E. split.
    { f_equal. destruct (is_separator U p); [now apply title_capital|reflexivity]. }
    split; [constructor; [|exact Ft]|].
    { destruct (is_separator U p); [|exact Hc]. unfold capital, small_letter. destruct (_ && _) eqn:E2; [|exact Hc]. rewrite vb_bv by lia. lia. }
    split; [cbn [length]; now rewrite L|]. intros [|n] x Hx; cbn [nth_error] in *.
    + injection Hx as ->. reflexivity.
    + rewrite (Hn n x Hx). destruct n as [|m]; reflexivity.
Qed.

(** ** C42 *)

(** Exactly the small letters at the start of words become capital ones, and nothing else changes. *)
Theorem C42_words_capitalised : forall U s, Forall (fun c => vb c < 128)%N s ->
  length (title U s) = length s /\
  forall n c, nth_error s n = Some c ->
    (word_starts s n -> nth_error (title U s) n = Some (capital c)) /\ (~ word_starts s n -> nth_error (title U s) n = Some c).
Proof.
  intros U s H. assert (A : forall t, Forall (fun c => vb c < 128)%N t -> is_ascii t = true).
  { intros t Ht. unfold is_ascii. apply forallb_forall. rewrite Forall_forall in Ht. intros c Hc. specialize (Ht c Hc). lia. }
  destruct (title_at U s 32%N H) as (t & E & Ft & L & Hn). unfold title. rewrite (ascii_decode s (A s H)), E, (ascii_encode t (A t Ft)). split; [exact L|].
  intros n c Hc. rewrite (Hn n c Hc). destruct n as [|m].
  - split; [intros _; reflexivity|]. intros N. elim N. exact Logic.I.
  - assert (Lm : m < length s) by (assert (S m < length s) by (apply nth_error_Some; congruence); lia).
    destruct (nth_error s m) as [x|] eqn:Ex; [|apply nth_error_None in Ex; lia].
    assert (Hx : (vb x < 128)%N) by (rewrite Forall_forall in H; apply H; eapply nth_error_In; exact Ex).
    cbn [word_starts]. rewrite Ex. assert (S := separator_word U x Hx). split.
    + intros (y & Hy & Hw). assert (y = x) by congruence. subst y. rewrite (proj2 S Hw). reflexivity.
    + intros N. destruct (is_separator U (vb x)) eqn:Es; [|reflexivity]. elim N. exists x. split; [reflexivity|now apply S].
Qed.
Print Assumptions C42_words_capitalised.

Example C42_words_example : Forall (fun c => vb c < 128)%N (b "web-site dEtails") /\ title latin1 (b "web-site dEtails") = b "Web-Site DEtails".
Proof. split; [repeat constructor|vm_compute; reflexivity]. Qed.
