(** The words of the command line are read as [Spec_Args] says. *)
From Verif Require Import Base Utf8 GoStrings GoStringsProof Json Civil Crypto Path Fs Domain Repos Session
  World Config ItemService Updater Cli Gui Args Spec_Args.

Definition pair_of (s : setting) : bytes * bytes :=
  match s with
  | Text f v => (text_long f, v)
  | Switch f x => (switch_long f, bool_text x)
  end.

Definition tflag (f : text_flag) : flag :=
  match f with FVault => vault_flag | FCategory => category_flag | FName => name_flag end.
Definition sflag (f : switch) : flag :=
  match f with FTrashed => trashed_flag | FHelp => help_flag end.

(** [fs] is the set of flags [allowed]. *)
Record knows (fs : list flag) (allowed : setting -> Prop) : Prop := {
  k_text : forall f v, allowed (Text f v) ->
    find_long fs (text_long f) = Some (tflag f) /\ find_short fs (f_short (tflag f)) = Some (tflag f);
  k_switch : forall f x, allowed (Switch f x) ->
    find_long fs (switch_long f) = Some (sflag f) /\ find_short fs (f_short (sflag f)) = Some (sflag f);
  k_all : forall g, In g fs ->
    (exists f, g = tflag f /\ forall v, allowed (Text f v)) \/ (exists f, g = sflag f /\ forall x, allowed (Switch f x));
}.

Ltac know :=
  split;
  [ intros [] v A; try contradiction; vm_compute; split; reflexivity
  | intros [] v A; try contradiction; vm_compute; split; reflexivity
  | intros g Hg; cbn in Hg ].

Lemma knows_list : knows (sub_flags SList ++ [help_flag]) flags_list.
Proof.
  know.
  destruct Hg as [<- | [<- | [<- | [<- | [<- | []]]]]].
  - left; exists FVault; split; [ reflexivity | intros; exact Logic.I ].
  - left; exists FCategory; split; [ reflexivity | intros; exact Logic.I ].
  - left; exists FName; split; [ reflexivity | intros; exact Logic.I ].
  - right; exists FTrashed; split; [ reflexivity | intros; exact Logic.I ].
  - right; exists FHelp; split; [ reflexivity | intros; exact Logic.I ].
Qed.

Lemma knows_item : knows ([vault_flag; trashed_flag] ++ [help_flag]) flags_item.
Proof.
  know.
  destruct Hg as [<- | [<- | [<- | []]]].
  - left; exists FVault; split; [ reflexivity | intros; exact Logic.I ].
  - right; exists FTrashed; split; [ reflexivity | intros; exact Logic.I ].
  - right; exists FHelp; split; [ reflexivity | intros; exact Logic.I ].
Qed.

Lemma knows_gui : knows (root_flags ++ [help_flag]) flags_gui.
Proof.
  know.
  destruct Hg as [<- | [<- | []]].
  - left; exists FVault; split; [ reflexivity | intros; exact Logic.I ].
  - right; exists FHelp; split; [ reflexivity | intros; exact Logic.I ].
Qed.

Lemma knows_none : knows [help_flag] flags_none.
Proof.
  know.
  destruct Hg as [<- | []].
  right; exists FHelp; split; [ reflexivity | intros; exact Logic.I ].
Qed.

Lemma find_in (fs : list flag) p g : find p fs = Some g -> In g fs /\ p g = true.
Proof. apply find_some. Qed.

Lemma parse_says x v : says x v -> parse_bool v = Some x.
Proof.
  unfold says. destruct x; intros H; cbn [In] in H;
    repeat (destruct H as [<- | H]; [ reflexivity | ]); destruct H.
Qed.

Lemma parse_said x v : parse_bool v = Some x -> says x v.
Proof.
  unfold parse_bool, says.
  destruct (existsb _ _) eqn:E.
  - intros [= <-]. apply existsb_exists in E as (w & I & E). apply bytes_eqb_eq in E as ->.
    cbn [In] in I |- *. tauto.
  - destruct (existsb (bytes_eqb v) [b "0"; _; _; _; _; _]) eqn:E2; [ | discriminate ].
    intros [= <-]. apply existsb_exists in E2 as (w & I & E2). apply bytes_eqb_eq in E2 as ->.
    cbn [In] in I |- *. tauto.
Qed.

Section Knows.
Variable fs : list flag.
Variable allowed : setting -> Prop.
Hypothesis K : knows fs allowed.

(** No flag is called like this. *)
Lemma short_letters c g : find_short fs c = Some g ->
  c = f_short g /\ In c [ "v"; "c"; "n"; "t"; "h" ]%char /\
  ((exists f, g = tflag f /\ forall v, allowed (Text f v)) \/ (exists f, g = sflag f /\ forall x, allowed (Switch f x))).
Proof.
  intros H. apply find_in in H as [I E]. apply Ascii.eqb_eq in E.
  pose proof (k_all _ _ K g I) as A. split; [ congruence | ]. split; [ | exact A ].
  destruct A as [(f & -> & _) | (f & -> & _)]; destruct f; subst; cbn; tauto.
Qed.

Lemma long_known n g : find_long fs n = Some g ->
  (exists f, n = text_long f /\ g = tflag f /\ forall v, allowed (Text f v)) \/
  (exists f, n = switch_long f /\ g = sflag f /\ forall x, allowed (Switch f x)).
Proof.
  intros H. apply find_in in H as [I E]. apply bytes_eqb_eq in E.
  destruct (k_all _ _ K g I) as [(f & -> & A) | (f & -> & A)]; [ left | right ]; exists f; subst;
    (split; [ destruct f; reflexivity | split; [ reflexivity | exact A ] ]).
Qed.

Lemma short_no_test c r : In c [ "v"; "c"; "n"; "h" ]%char -> has_prefix (b "test.") (c :: r) = false.
Proof. cbn [In]. intros H. repeat (destruct H as [<- | H]; [ reflexivity | ]). destruct H. Qed.

Lemma split_text f v : split_equals (text_long f ++ b "=" ++ v) = (text_long f, Some v).
Proof. destruct f; reflexivity. Qed.
Lemma split_text_none f : split_equals (text_long f) = (text_long f, None).
Proof. destruct f; reflexivity. Qed.
Lemma split_switch f v : split_equals (switch_long f ++ b "=" ++ v) = (switch_long f, Some v).
Proof. destruct f; reflexivity. Qed.
Lemma split_switch_none f : split_equals (switch_long f) = (switch_long f, None).
Proof. destruct f; reflexivity. Qed.

Lemma long_text f w : long_word fs (text_long f ++ w) =
  let (n, v) := split_equals (text_long f ++ w) in
  match find_long fs n with
  | None => WBad
  | Some g => match v with
              | Some x => set_flag g x
              | None => if f_bool g then WSets [(f_long g, b "true")] else WNeeds [] g
              end
  end.
Proof. destruct f; reflexivity. Qed.

Lemma long_switch f w : long_word fs (switch_long f ++ w) =
  let (n, v) := split_equals (switch_long f ++ w) in
  match find_long fs n with
  | None => WBad
  | Some g => match v with
              | Some x => set_flag g x
              | None => if f_bool g then WSets [(f_long g, b "true")] else WNeeds [] g
              end
  end.
Proof. destruct f; reflexivity. Qed.

(** The first letter of a word of flags that is not its dash. *)
Lemma short_text f r : word_of fs (b "-" ++ text_short f ++ r) = short_word fs (f_short (tflag f) :: r).
Proof. destruct f; reflexivity. Qed.
Lemma short_switch f r : word_of fs (b "-" ++ switch_short f ++ r) = short_word fs (f_short (sflag f) :: r).
Proof. destruct f; reflexivity. Qed.

Lemma short_word_text f v r : allowed (Text f v) ->
  short_word fs (f_short (tflag f) :: r) =
  match r with
  | "="%char :: x :: w => WSets [(text_long f, x :: w)]
  | [] => WNeeds [] (tflag f)
  | _ => WSets [(text_long f, r)]
  end.
Proof.
  intros A. destruct (k_text _ _ K f v A) as [_ S].
  cbn [short_word]. rewrite short_no_test by (destruct f; cbn; tauto). rewrite S.
  assert (B : f_bool (tflag f) = false) by (destruct f; reflexivity).
  assert (L : f_long (tflag f) = text_long f) by (destruct f; reflexivity).
  unfold set_flag. rewrite B, L.
  destruct r as [ | c r ]; [ reflexivity | ].
  destruct (Ascii.eqb_spec c "=") as [-> | N].
  - destruct r; reflexivity.
  - destruct c as [[] [] [] [] [] [] [] []]; try reflexivity; contradiction N; reflexivity.
Qed.

Lemma short_word_switch f x r : allowed (Switch f x) ->
  has_prefix (b "test.") (f_short (sflag f) :: r) = false ->
  short_word fs (f_short (sflag f) :: r) =
  match r with
  | "="%char :: x :: w => match parse_bool (x :: w) with
                          | Some y => WSets [(switch_long f, bool_text y)]
                          | None => WBad
                          end
  | _ => after (switch_long f, b "true") (short_word fs r)
  end.
Proof.
  intros A N. destruct (k_switch _ _ K f x A) as [_ S].
  cbn [short_word]. rewrite N, S.
  assert (B : f_bool (sflag f) = true) by (destruct f; reflexivity).
  assert (L : f_long (sflag f) = switch_long f) by (destruct f; reflexivity).
  unfold set_flag. rewrite B, L.
  destruct r as [ | c r ]; [ reflexivity | ].
  destruct (Ascii.eqb_spec c "=") as [-> | E].
  - destruct r; reflexivity.
  - destruct c as [[] [] [] [] [] [] [] []]; try reflexivity; contradiction E; reflexivity.
Qed.

Lemma no_test_equals c r : has_prefix (b "test.") (c :: "="%char :: r) = false.
Proof. destruct c as [[] [] [] [] [] [] [] []]; reflexivity. Qed.

Lemma no_test_one c : has_prefix (b "test.") [c] = false.
Proof. destruct c as [[] [] [] [] [] [] [] []]; reflexivity. Qed.

(** What a group of flags reads as: one word, or a word and the value of its last flag. *)
Definition reads (l : list setting) (ws : list bytes) : Prop :=
  (exists w, ws = [w] /\ word_of fs w = WSets (map pair_of l)) \/
  (exists w v l1 g, ws = [w; v] /\ word_of fs w = WNeeds l1 g /\ map pair_of l = l1 ++ [(f_long g, v)]).

Lemma written_reads s ws : written s ws -> allowed s -> reads [s] ws.
Proof.
  intros H A. destruct H as [f v | f v | f v | f v N | f v J | f | f | f x v S | f x v S].
  - right. exists (b "-" ++ text_short f), v, [], (tflag f).
    split; [ reflexivity | ]. split.
    + rewrite <- (app_nil_r (b "-" ++ text_short f)), <- app_assoc, short_text.
      rewrite (short_word_text f v []) by exact A. reflexivity.
    + destruct f; reflexivity.
  - right. exists (b "--" ++ text_long f), v, [], (tflag f).
    split; [ reflexivity | ]. split.
    + change (word_of fs (b "--" ++ text_long f)) with (long_word fs (text_long f)).
      rewrite <- (app_nil_r (text_long f)), long_text, app_nil_r, split_text_none.
      destruct (k_text _ _ K f v A) as [-> _]. destruct f; reflexivity.
    + destruct f; reflexivity.
  - left. eexists; split; [ reflexivity | ].
    change (word_of fs (b "--" ++ text_long f ++ b "=" ++ v)) with (long_word fs (text_long f ++ b "=" ++ v)).
    rewrite long_text, split_text. destruct (k_text _ _ K f v A) as [-> _]. destruct f; reflexivity.
  - left. eexists; split; [ reflexivity | ]. rewrite short_text, (short_word_text f v) by exact A.
    destruct v as [ | c v ]; [ congruence | reflexivity ].
  - left. eexists; split; [ reflexivity | ]. rewrite short_text, (short_word_text f v) by exact A.
    destruct J as [N J]. destruct v as [ | c v ]; [ congruence | ].
    destruct (Ascii.eqb_spec c "=") as [-> | E].
    + destruct v as [ | d v ]; [ reflexivity | ]. exfalso. eapply J; reflexivity.
    + destruct c as [[] [] [] [] [] [] [] []]; try reflexivity; contradiction E; reflexivity.
  - left. eexists; split; [ reflexivity | ].
    rewrite <- (app_nil_r (b "-" ++ switch_short f)), <- app_assoc, short_switch.
    rewrite (short_word_switch f true) by (exact A || apply no_test_one). reflexivity.
  - left. eexists; split; [ reflexivity | ].
    change (word_of fs (b "--" ++ switch_long f)) with (long_word fs (switch_long f)).
    rewrite <- (app_nil_r (switch_long f)), long_switch, app_nil_r, split_switch_none.
    destruct (k_switch _ _ K f true A) as [-> _]. destruct f; reflexivity.
  - left. eexists; split; [ reflexivity | ]. rewrite short_switch.
    rewrite (short_word_switch f x) by (exact A || apply no_test_equals).
    apply parse_says in S. destruct v as [ | c v ]; [ discriminate | ].
    cbn [Datatypes.app b list_ascii_of_string]. rewrite S. reflexivity.
  - left. eexists; split; [ reflexivity | ].
    change (word_of fs (b "--" ++ switch_long f ++ b "=" ++ v)) with (long_word fs (switch_long f ++ b "=" ++ v)).
    rewrite long_switch, split_switch. destruct (k_switch _ _ K f x A) as [-> _].
    apply parse_says in S. unfold set_flag. rewrite S. destruct f; reflexivity.
Qed.

Lemma word_short r : r <> [] -> hd_error r <> Some "-"%char -> word_of fs (b "-" ++ r) = short_word fs r.
Proof.
  destruct r as [ | c r ]; [ congruence | ]. intros _ H.
  destruct c as [[] [] [] [] [] [] [] []]; try reflexivity; cbn in H; congruence.
Qed.

Lemma short_bad c r : find_short fs c = None -> c <> "t"%char -> short_word fs (c :: r) = WBad.
Proof.
  intros H N. cbn [short_word].
  assert (P : has_prefix (b "test.") (c :: r) = false).
  { destruct c as [[] [] [] [] [] [] [] []]; try reflexivity; congruence. }
  rewrite P, H. reflexivity.
Qed.

Lemma no_letter c : ~ In c [ "v"; "c"; "n"; "t"; "h" ]%char -> find_short fs c = None.
Proof.
  intros N. destruct (find_short fs c) as [ g | ] eqn:E; [ | reflexivity ].
  destruct N. apply short_letters in E. tauto.
Qed.

Lemma together_word f r : r <> [] -> hd_error r <> Some "-"%char -> allowed (Switch f true) ->
  short_word fs r <> WBad ->
  word_of fs (b "-" ++ switch_short f ++ r) = after (switch_long f, b "true") (short_word fs r).
Proof.
  intros N D A G. rewrite short_switch.
  destruct r as [ | c r ]; [ congruence | ].
  assert (L : In c [ "v"; "c"; "n"; "t"; "h" ]%char).
  { destruct (in_dec ascii_dec c [ "v"; "c"; "n"; "t"; "h" ]%char) as [ i | n ]; [ exact i | ].
    exfalso. apply G, short_bad; [ apply no_letter, n | ].
    intros ->. apply n. cbn. tauto. }
  rewrite (short_word_switch f true).
  - cbn [In] in L. destruct L as [<- | [<- | [<- | [<- | [<- | []]]]]]; reflexivity.
  - exact A.
  - cbn [In] in L. destruct f; destruct L as [<- | [<- | [<- | [<- | [<- | []]]]]]; reflexivity.
Qed.

Lemma group_reads l ws : group l ws -> Forall allowed l -> reads l ws.
Proof.
  induction 1 as [s ws H | f l r ws H IH N D | r ]; intros A.
  - apply written_reads; [ exact H | ]. inversion A; assumption.
  - inversion A as [ | s l0 A1 A2 ]; subst. specialize (IH A2).
    destruct IH as [(w & E & R) | (w & v & l1 & g & E & R & M)]; injection E as E1 E2; subst w ws.
    + left. eexists; split; [ reflexivity | ].
      change (word_of fs (b "-" ++ r) = WSets (map pair_of l)) in R. rewrite word_short in R by assumption.
      rewrite together_word; try assumption; [ | rewrite R; discriminate ]. rewrite R. reflexivity.
    + right. exists (b "-" ++ switch_short f ++ r), v, ((switch_long f, b "true") :: l1), g.
      change (word_of fs (b "-" ++ r) = WNeeds l1 g) in R. rewrite word_short in R by assumption.
      split; [ reflexivity | ]. split.
      * rewrite together_word; try assumption; [ | rewrite R; discriminate ]. rewrite R. reflexivity.
      * cbn [map pair_of bool_text]. rewrite M. reflexivity.
  - left. eexists; split; [ reflexivity | ]. reflexivity.
Qed.

Lemma argument_word x : argument x -> word_of fs x = WArg.
Proof.
  intros [-> | H]; [ reflexivity | ].
  destruct x as [ | c x ]; [ reflexivity | ]. cbn in H.
  destruct c as [[] [] [] [] [] [] [] []]; try reflexivity; congruence.
Qed.

(** A line that is written as it should be is read. *)
Theorem line_parsed l args ws : line l args ws -> Forall allowed l -> parse_args fs ws = Some (map pair_of l, args).
Proof.
  induction 1 as [ | l ws l' args rest G L IH | x l args rest X L IH | args ]; intros A.
  - reflexivity.
  - apply Forall_app in A as [A1 A2]. specialize (IH A2). rewrite map_app.
    destruct (group_reads _ _ G A1) as [(w & -> & R) | (w & v & l1 & g & -> & R & M)].
    + cbn [Datatypes.app parse_args]. rewrite R, IH. reflexivity.
    + cbn [Datatypes.app parse_args]. rewrite R, IH, M, <- app_assoc. reflexivity.
  - cbn [parse_args]. rewrite (argument_word x X), (IH A). reflexivity.
  - reflexivity.
Qed.

(** ** And no other line is. *)
Lemma set_text f v : set_flag (tflag f) v = WSets [(text_long f, v)].
Proof. destruct f; reflexivity. Qed.

Lemma set_switch f v : set_flag (sflag f) v =
  match parse_bool v with Some x => WSets [(switch_long f, bool_text x)] | None => WBad end.
Proof. destruct f; reflexivity. Qed.

Definition grouped (r : bytes) (x : word) : Prop :=
  match x with
  | WSets l => exists ls, l = map pair_of ls /\ Forall allowed ls /\ group ls [r]
  | WNeeds l g => forall v, exists ls, l ++ [(f_long g, v)] = map pair_of ls /\ Forall allowed ls /\ group ls [r; v]
  | WArg | WEnd => False
  | WBad => True
  end.

Lemma short_grouped r : r <> [] -> hd_error r <> Some "-"%char -> grouped (b "-" ++ r) (short_word fs r).
Proof.
  induction r as [ | c r IH ]; [ congruence | ]. intros _ D.
  destruct (has_prefix (b "test.") (c :: r)) eqn:P.
  - replace (short_word fs (c :: r)) with (WSets []) by (cbn [short_word]; rewrite P; reflexivity).
    exists []. split; [ reflexivity | ]. split; [ constructor | ].
    apply has_prefix_spec in P as (q & ->). change (b "-" ++ b "test." ++ q) with (b "-test." ++ q). constructor.
  - destruct (find_short fs c) as [ g | ] eqn:F.
    2:{ replace (short_word fs (c :: r)) with WBad by (cbn [short_word]; rewrite P, F; reflexivity). exact Logic.I. }
    pose proof (short_letters c g F) as (-> & _ & [(f & -> & A) | (f & -> & A)]).
    + rewrite (short_word_text f []) by apply A.
      assert (S1 : b "-" ++ f_short (tflag f) :: r = b "-" ++ text_short f ++ r) by (destruct f; reflexivity).
      destruct r as [ | c r ].
      * intros v. exists [Text f v]. split; [ destruct f; reflexivity | ]. split; [ repeat constructor; apply A | ].
        rewrite S1, app_nil_r. constructor. constructor.
      * assert (J : can_join (c :: r) ->
          exists ls, [(text_long f, c :: r)] = map pair_of ls /\ Forall allowed ls /\ group ls [b "-" ++ f_short (tflag f) :: c :: r]).
        { intros J. exists [Text f (c :: r)]. split; [ reflexivity | ]. split; [ repeat constructor; apply A | ].
          rewrite S1. constructor. constructor. exact J. }
        destruct (Ascii.eqb_spec c "=") as [-> | E].
        -- destruct r as [ | d r ].
           ++ apply J. split; [ discriminate | ]. intros c x. discriminate.
           ++ exists [Text f (d :: r)]. split; [ reflexivity | ]. split; [ repeat constructor; apply A | ].
              rewrite S1. constructor. apply (short_equals f (d :: r)). discriminate.
        -- assert (J' : can_join (c :: r)).
           { split; [ discriminate | ]. intros d x [= E' _]. contradiction. }
           apply J in J'.
           destruct c as [[] [] [] [] [] [] [] []]; try exact J'; contradiction E; reflexivity.
    + rewrite (short_word_switch f true) by (apply A || exact P).
      assert (S1 : b "-" ++ f_short (sflag f) :: r = b "-" ++ switch_short f ++ r) by (destruct f; reflexivity).
      destruct r as [ | c r ].
      * exists [Switch f true]. split; [ reflexivity | ]. split; [ repeat constructor; apply A | ].
        rewrite S1, app_nil_r. constructor. constructor.
      * assert (J : grouped (b "-" ++ f_short (sflag f) :: c :: r)
                      (after (switch_long f, b "true") (short_word fs (c :: r)))).
        { destruct (Ascii.eqb_spec c "-") as [-> | E].
          { rewrite short_bad; [ exact Logic.I | apply no_letter; cbn; intuition discriminate | discriminate ]. }
          assert (D' : hd_error (c :: r) <> Some "-"%char) by (cbn; congruence).
          assert (N' : c :: r <> []) by discriminate.
          specialize (IH N' D'). rewrite S1.
          destruct (short_word fs (c :: r)) as [ | | l | l g | ]; try (exact IH).
          - destruct IH as (ls & -> & F1 & G). exists (Switch f true :: ls).
            split; [ reflexivity | ]. split; [ constructor; [ apply A | exact F1 ] | ].
            constructor; assumption.
          - intros v. destruct (IH v) as (ls & E1 & F1 & G). exists (Switch f true :: ls).
            split; [ cbn; rewrite E1; reflexivity | ]. split; [ constructor; [ apply A | exact F1 ] | ].
            constructor; assumption. }
        destruct (Ascii.eqb_spec c "=") as [-> | E].
        -- destruct r as [ | d r ]; [ exact J | ].
           destruct (parse_bool (d :: r)) as [ x | ] eqn:B; [ | exact Logic.I ].
           exists [Switch f x]. split; [ reflexivity | ]. split; [ repeat constructor; apply A | ].
           rewrite S1. constructor. apply (switch_equals f x (d :: r)). apply parse_said, B.
        -- destruct c as [[] [] [] [] [] [] [] []]; try exact J; contradiction E; reflexivity.
Qed.

Lemma split_equals_spec s : match split_equals s with
                            | (n, Some v) => s = n ++ b "=" ++ v
                            | (n, None) => s = n
                            end.
Proof.
  induction s as [ | c s IH ]; [ reflexivity | ].
  cbn [split_equals]. destruct (Ascii.eqb_spec c "=") as [-> | E]; [ reflexivity | ].
  destruct (split_equals s) as [n [v | ]]; cbn; rewrite IH at 1; reflexivity.
Qed.

Lemma long_grouped n : n <> [] -> grouped (b "--" ++ n) (long_word fs n).
Proof.
  destruct n as [ | c n ]; [ congruence | ]. intros _. cbn [long_word].
  destruct (_ || _) eqn:E; [ exact Logic.I | ].
  pose proof (split_equals_spec (c :: n)) as S.
  destruct (split_equals (c :: n)) as [m v].
  destruct (find_long fs m) as [ g | ] eqn:F; [ | exact Logic.I ].
  destruct (long_known m g F) as [(f & -> & -> & A) | (f & -> & -> & A)]; destruct v as [ v | ].
  - rewrite set_text, S. exists [Text f v]. split; [ reflexivity | ]. split; [ repeat constructor; apply A | ].
    constructor. constructor.
  - replace (f_bool (tflag f)) with false by (destruct f; reflexivity). rewrite S.
    intros v. exists [Text f v]. split; [ destruct f; reflexivity | ]. split; [ repeat constructor; apply A | ].
    constructor. constructor.
  - rewrite set_switch, S. destruct (parse_bool v) as [ x | ] eqn:B; [ | exact Logic.I ].
    exists [Switch f x]. split; [ reflexivity | ]. split; [ repeat constructor; apply A | ].
    constructor. constructor. apply parse_said, B.
  - replace (f_bool (sflag f)) with true by (destruct f; reflexivity). rewrite S.
    exists [Switch f true]. split; [ destruct f; reflexivity | ]. split; [ repeat constructor; apply A | ].
    constructor. constructor.
Qed.

(** The three kinds of words. *)
Lemma word_cases s : (argument s /\ word_of fs s = WArg) \/ (s = b "--" /\ word_of fs s = WEnd) \/
  grouped s (word_of fs s).
Proof.
  destruct s as [ | c s ].
  { left. split; [ right; discriminate | reflexivity ]. }
  destruct (Ascii.eqb_spec c "-") as [-> | E].
  2:{ left. assert (X : argument (c :: s)) by (right; cbn; congruence). split; [ exact X | apply argument_word, X ]. }
  destruct s as [ | c s ].
  { left. split; [ left; reflexivity | reflexivity ]. }
  destruct (Ascii.eqb_spec c "-") as [-> | E].
  - destruct s as [ | d s ].
    + right; left. split; reflexivity.
    + right; right. apply (long_grouped (d :: s)). discriminate.
  - right; right. change (grouped (b "-" ++ c :: s) (word_of fs (b "-" ++ c :: s))). rewrite (word_short (c :: s)) by (discriminate || (cbn; congruence)).
    apply (short_grouped (c :: s)); [ discriminate | cbn; congruence ].
Qed.

Theorem parsed_line n : forall ws l args, List.length ws <= n -> parse_args fs ws = Some (l, args) ->
  exists ls, l = map pair_of ls /\ Forall allowed ls /\ line ls args ws.
Proof.
  induction n as [ | n IH ]; intros ws l args Ln H.
  { destruct ws; [ | cbn in Ln; lia ]. injection H as <- <-. exists []. repeat split; constructor. }
  destruct ws as [ | s rest ].
  { injection H as <- <-. exists []. repeat split; constructor. }
  cbn [List.length] in Ln. cbn [parse_args] in H.
  destruct (word_cases s) as [[X E] | [[-> E] | G]].
  - rewrite E in H. destruct (parse_args fs rest) as [[l' a] | ] eqn:P; [ | discriminate ]. injection H as <- <-.
    destruct (IH rest l' a) as (ls & -> & F1 & L); [ lia | exact P | ].
    exists ls. split; [ reflexivity | ]. split; [ exact F1 | ]. constructor; assumption.
  - rewrite E in H. injection H as <- <-. exists []. repeat split; constructor.
  - destruct (word_of fs s) as [ | | l1 | l1 g | ]; try contradiction; try discriminate.
    + destruct (parse_args fs rest) as [[l' a] | ] eqn:P; [ | discriminate ]. injection H as <- <-.
      destruct (IH rest l' a) as (ls & -> & F1 & L); [ lia | exact P | ].
      destruct G as (ls1 & -> & F2 & G). exists (ls1 ++ ls). rewrite map_app. split; [ reflexivity | ].
      split; [ apply Forall_app; split; assumption | ]. exact (line_flags _ [s] _ _ _ G L).
    + destruct rest as [ | v rest ]; [ discriminate | ]. cbn [List.length] in Ln.
      destruct (parse_args fs rest) as [[l' a] | ] eqn:P; [ | discriminate ]. injection H as <- <-.
      destruct (IH rest l' a) as (ls & -> & F1 & L); [ lia | exact P | ].
      destruct (G v) as (ls1 & E & F2 & G'). exists (ls1 ++ ls). rewrite map_app, <- E, <- app_assoc.
      split; [ reflexivity | ]. split; [ apply Forall_app; split; assumption | ]. exact (line_flags _ [s; v] _ _ _ G' L).
Qed.

End Knows.

(** ** Values: the last one counts *)
Lemma last_cons {A} (v : A) l d : last (v :: l) d = last l v.
Proof.
  revert v d. induction l as [ | x l IH ]; intros v d; [ reflexivity | ].
  change (last (v :: x :: l) d) with (last (x :: l) d). rewrite !IH. reflexivity.
Qed.

Lemma value_text_from f ls d : value_of (text_long f) d (map pair_of ls) = last (texts f ls) d.
Proof.
  revert d. induction ls as [ | s ls IH ]; intros d; [ reflexivity | ].
  assert (H : forall v, last (v :: texts f ls) d = last (texts f ls) v) by (intros; apply last_cons).
  destruct s as [g v | g v]; cbn [map pair_of value_of].
  - rewrite IH. unfold texts. cbn [flat_map]. fold (texts f ls).
    destruct f, g; cbn [text_flag_eqb text_long bytes_eqb]; try reflexivity; cbn [Datatypes.app]; symmetry; apply H.
  - rewrite IH. unfold texts. cbn [flat_map Datatypes.app]. fold (texts f ls).
    destruct f, g; reflexivity.
Qed.

Lemma value_switch_from f ls d : value_of (switch_long f) (bool_text d) (map pair_of ls) = bool_text (last (switches f ls) d).
Proof.
  revert d. induction ls as [ | s ls IH ]; intros d; [ reflexivity | ].
  assert (H : forall v, last (v :: switches f ls) d = last (switches f ls) v) by (intros; apply last_cons).
  destruct s as [g v | g v]; cbn [map pair_of value_of].
  - replace (bytes_eqb (text_long g) (switch_long f)) with false by (destruct f, g; reflexivity).
    rewrite IH. reflexivity.
  - unfold switches. cbn [flat_map]. fold (switches f ls).
    destruct (switch_eqb f g) eqn:E.
    + replace (bytes_eqb (switch_long g) (switch_long f)) with true by (destruct f, g; (reflexivity || discriminate)).
      rewrite IH. cbn [Datatypes.app]. rewrite H. reflexivity.
    + replace (bytes_eqb (switch_long g) (switch_long f)) with false by (destruct f, g; (reflexivity || discriminate)).
      rewrite IH. reflexivity.
Qed.

Lemma value_text f ls : text_of (tflag f) (map pair_of ls) = text_value f ls.
Proof. unfold text_of, text_value. replace (f_long (tflag f)) with (text_long f) by (destruct f; reflexivity). apply value_text_from. Qed.

Lemma value_switch f ls : truth_of (sflag f) (map pair_of ls) = is_on f ls.
Proof.
  unfold truth_of, is_on. replace (f_long (sflag f)) with (switch_long f) by (destruct f; reflexivity).
  change (b "false") with (bool_text false). rewrite value_switch_from. destruct (last _ _); reflexivity.
Qed.
