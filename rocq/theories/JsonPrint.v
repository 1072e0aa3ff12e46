(** A JSON printer, on the writer's side: every value a vault can hold has a
    text.  It is not part of the program; it is used to write vaults. *)
From Verif Require Import Base Utf8 GoStrings GoStringsProof Float64 Float64Proof Json Spec_Json JsonProof.

Fixpoint commas (l : list bytes) : bytes :=
  match l with
  | [] => []
  | [x] => x
  | x :: l' => x ++ ","%char :: commas l'
  end.

Definition print_num (f : f64) : bytes :=
  (if f_neg f then ["-"%char] else []) ++ dec_of_N (f_num f).

Fixpoint print_json (v : json) : bytes :=
  match v with
  | JNull => b "null"
  | JBool true => b "true"
  | JBool false => b "false"
  | JNum f => print_num f
  | JStr s => print_str s
  | JArr l => "["%char :: commas (map print_json l) ++ ["]"%char]
  | JObj m =>
      "{"%char :: commas (map (fun kv => print_str (fst kv) ++ ":"%char :: print_json (snd kv)) m)
      ++ ["}"%char]
  end.

Definition print_members (m : list (bytes * json)) : bytes :=
  commas (map (fun kv => print_str (fst kv) ++ ":"%char :: print_json (snd kv)) m).

(** Values that can be printed: texts are UTF-8, numbers are integers a float64
    holds exactly, keys are unique, at most [n] levels. *)
Inductive printable : nat -> json -> Prop :=
| pr_null n : printable n JNull
| pr_bool n x : printable n (JBool x)
| pr_num n z : (-9007199254740992 < z < 9007199254740992)%Z -> printable n (JNum (f64_of_Z z))
| pr_str n s : valid_utf8 s -> printable n (JStr s)
| pr_arr n l : Forall (printable n) l -> printable (S n) (JArr l)
| pr_obj n m :
    NoDup (map fst m) -> Forall (fun kv => valid_utf8 (fst kv) /\ printable n (snd kv)) m ->
    printable (S n) (JObj m).

Lemma hexn_digit n : (n < 16)%N -> hex_digit (hexn n) (N.to_nat n).
Proof.
  intros H. left. unfold hexn.
  destruct (nth_error (b "0123456789abcdef") (N.to_nat n)) eqn:E; [reflexivity|].
  apply nth_error_None in E. change (length (b "0123456789abcdef")) with 16 in E. lia.
Qed.

Lemma print_runes_text rs :
  Forall (fun r => valid_rune r = true) rs -> str_text rs (flat_map print_rune rs).
Proof.
  induction 1 as [|r rs Hr H IH]; [constructor|]. cbn [flat_map]. unfold print_rune at 1.
  destruct (N.eqb_spec r 34) as [->|N1].
  { apply (st_esc """"%char); [simpl; auto|exact IH]. }
  destruct (N.eqb_spec r 92) as [->|N2].
  { apply (st_esc "\"%char); [simpl; auto|exact IH]. }
  destruct (N.ltb_spec r 32) as [N3|N3].
  - change (b "\u00" ++ [hexn (r / 16); hexn (r mod 16)]) with
      ("\"%char :: "u"%char :: ["0"; "0"; hexn (r / 16); hexn (r mod 16)]%char).
    change (("\"%char :: "u"%char :: ["0"; "0"; hexn (r / 16); hexn (r mod 16)]%char) ++
              flat_map print_rune rs) with
      ("\"%char :: "u"%char :: ["0"; "0"; hexn (r / 16); hexn (r mod 16)]%char ++
              flat_map print_rune rs).
    apply st_u; auto.
    exists "0"%char, "0"%char, (hexn (r / 16)), (hexn (r mod 16)), 0, 0, (N.to_nat (r / 16)), (N.to_nat (r mod 16)).
    split; [reflexivity|]. split; [left; reflexivity|]. split; [left; reflexivity|].
    split; [apply hexn_digit; lia|]. split; [apply hexn_digit; lia|]. lia.
  - apply st_raw; auto.
Qed.

Lemma print_str_text s : valid_utf8 s ->
  exists rs t, s = utf8_encode rs /\ str_text rs t /\ print_str s = quote :: t ++ [quote].
Proof.
  intros H. exists (utf8_decode s), (flat_map print_rune (utf8_decode s)).
  split; [symmetry; now apply valid_utf8_encode_decode|]. split; [|reflexivity].
  apply print_runes_text, utf8_decode_valid.
Qed.

Lemma forallb_all_digits ds : forallb is_digit ds = true -> all_digits ds.
Proof. unfold all_digits. rewrite forallb_forall, Forall_forall. auto. Qed.

Lemma dec_of_N_int_part n : int_part (dec_of_N n).
Proof.
  split; [apply forallb_all_digits, dec_of_N_digits|].
  destruct (N.eq_dec n 0) as [->|Hn]; [left; reflexivity|right].
  remember (N.to_nat n) as k eqn:Hk. revert n Hn Hk.
  induction k as [k IH] using lt_wf_ind; intros n Hn Hk.
  destruct (N.lt_ge_cases n 10) as [Hs|Hs].
  - rewrite dec_of_N_small by exact Hs. exists (digit_char n), []. split; [reflexivity|].
    intros E. apply (f_equal digit_val) in E. rewrite digit_val_char in E by exact Hs.
    vm_compute in E. congruence.
  - rewrite dec_of_N_step by exact Hs.
    destruct (IH (N.to_nat (n / 10))) with (n := (n / 10)%N) as (c & r & E & Hc); try lia.
    exists c, (r ++ [digit_char (n mod 10)]). rewrite E. auto.
Qed.

Lemma print_num_text z :
  (-9007199254740992 < z < 9007199254740992)%Z -> num_text (f64_of_Z z) (print_num (f64_of_Z z)).
Proof.
  intros H. unfold print_num, f64_of_Z. rewrite mk_f64_neg, mk_f64_num.
  set (n := Z.to_N (Z.abs z)). set (neg := (z <? 0)%Z).
  replace (dec_of_N n) with (dec_of_N n ++ [] ++ []) by apply app_nil_r.
  apply (nt_intro neg (dec_of_N n) [] [] 0 []).
  - apply dec_of_N_int_part.
  - constructor.
  - constructor.
  - rewrite app_nil_r. change (digits_val (dec_of_N n)) with (dec_val (dec_of_N n)).
    rewrite dec_val_of_N. cbn [length Z.of_nat]. rewrite Z.sub_0_r.
    apply of_dec_N. unfold exact_bound. lia.
Qed.

Lemma mset_new {V} k (v : V) m : ~ In k (map fst m) -> mset k v m = m ++ [(k, v)].
Proof.
  induction m as [|[k' v'] m IH]; simpl; intros H; [reflexivity|].
  destruct (bytes_eqb k k') eqn:E.
  - apply bytes_eqb_eq in E. subst. tauto.
  - now rewrite IH by tauto.
Qed.

Lemma obj_of_nodup m : NoDup (map fst m) -> obj_of m = m.
Proof.
  unfold obj_of. intros H.
  assert (G : forall acc, NoDup (map fst (acc ++ m)) ->
    fold_left (fun m kv => mset (fst kv) (snd kv) m) m acc = acc ++ m).
  { clear H. induction m as [|[k v] m IH]; intros acc H; simpl; [now rewrite app_nil_r|].
    rewrite map_app in H. cbn [map fst] in H.
    rewrite mset_new.
    - rewrite IH; [now rewrite <- app_assoc|]. now rewrite <- app_assoc, map_app.
    - apply NoDup_remove_2 in H. rewrite in_app_iff in H. tauto. }
  now apply (G []).
Qed.

Lemma print_members_text n m :
  (forall v, printable n v -> json_text n v (print_json v)) ->
  Forall (fun kv => valid_utf8 (fst kv) /\ printable n (snd kv)) m -> m <> [] ->
  members_text n m (print_members m).
Proof.
  intros IH H Hne. unfold print_members.
  induction H as [|[k v] m [Hk Hv] H IHm]; [congruence|]. cbn [fst snd] in *.
  destruct (print_str_text k Hk) as (rs & t & -> & Ht & E).
  destruct m as [|kv m].
  - cbn [map commas fst snd]. rewrite E.
    replace ((quote :: t ++ [quote]) ++ ":"%char :: print_json v)
      with ([] ++ quote :: t ++ quote :: [] ++ ":"%char :: [] ++ print_json v ++ []).
    + apply mt_one; auto; constructor.
    + simpl. now rewrite app_nil_r, <- app_assoc.
  - specialize (IHm ltac:(discriminate)). cbn [map commas fst snd] in *. rewrite E.
    match goal with |- members_text _ _ ((_ ++ ?c :: print_json v) ++ ?d :: ?tl) =>
      replace (((quote :: t ++ [quote]) ++ c :: print_json v) ++ d :: tl)
        with ([] ++ quote :: t ++ quote :: [] ++ ":"%char :: [] ++ print_json v ++ [] ++ ","%char :: tl) end.
    + apply mt_cons; auto; constructor.
    + simpl. now rewrite <- !app_assoc.
Qed.

Lemma print_elems_text n l :
  (forall v, printable n v -> json_text n v (print_json v)) ->
  Forall (printable n) l -> l <> [] -> elems_text n l (commas (map print_json l)).
Proof.
  intros IH H Hne. induction H as [|v l Hv H IHl]; [congruence|].
  destruct l as [|v' l].
  - cbn [map commas]. replace (print_json v) with ([] ++ print_json v ++ []) by apply app_nil_r.
    apply et_one; auto; constructor.
  - specialize (IHl ltac:(discriminate)). cbn [map commas] in *.
    match goal with |- elems_text _ _ (_ ++ ?d :: ?tl) =>
      change (print_json v ++ d :: tl) with ([] ++ print_json v ++ [] ++ ","%char :: tl) end.
    apply et_cons; auto; constructor.
Qed.

Lemma print_json_text n : forall v, printable n v -> json_text n v (print_json v).
Proof.
  induction n as [|n IH]; intros v H; inversion H as [n'|n' x|n' z Hz|n' s Hs|n' l Hl|n' m Hm Hk]; subst.
  1,5: constructor.
  1,4: destruct x; constructor.
  1,3: constructor; now apply print_num_text.
  1,2: destruct (print_str_text s Hs) as (rs & t & -> & Ht & E); cbn [print_json]; rewrite E; now constructor.
  - cbn [print_json]. destruct l as [|v l].
    + change (commas (map print_json [])) with (@nil ascii). constructor. constructor.
    + constructor. apply print_elems_text; auto. discriminate.
  - cbn [print_json]. destruct m as [|kv m].
    + apply jt_obj0. constructor.
    + rewrite <- (obj_of_nodup (kv :: m) Hm) at 1. apply jt_obj.
      apply print_members_text; auto. discriminate.
Qed.

(** Every printable value has a text that denotes it. *)
Theorem print_json_doc n v : (N.of_nat n <= 10000)%N -> printable n v -> json_doc v (print_json v).
Proof.
  intros Hn H. exists n, [], (print_json v), []. split; [exact Hn|]. split; [constructor|].
  split; [now apply print_json_text|]. split; [constructor|]. simpl. now rewrite app_nil_r.
Qed.
