(** UTF-8 as in Go's unicode/utf8 (standard library, not part of /repo).
    Used by strings.ToLower, strings.Title, strings.TrimSpace, strings.Fields,
    fmt.Scanln and encoding/json, which the program calls. *)
From Verif Require Import Base.

Definition rune := N.

(** utf8.RuneError, U+FFFD. *)
Definition rune_error : rune := 65533%N.

Definition in_range (lo hi c : N) : bool := ((lo <=? c) && (c <=? hi))%N.

(** A Unicode scalar value. *)
Definition valid_rune (r : rune) : bool :=
  ((r <? 55296) || in_range 57344 1114111 r)%N.

(** utf8.AppendRune. Invalid runes are written as U+FFFD. *)
Definition enc_valid (r : rune) : bytes :=
  if (r <? 128)%N then [bv r]
  else if (r <? 2048)%N then [bv (192 + r / 64); bv (128 + r mod 64)]
  else if (r <? 65536)%N then
    [bv (224 + r / 4096); bv (128 + (r / 64) mod 64); bv (128 + r mod 64)]
  else
    [bv (240 + r / 262144); bv (128 + (r / 4096) mod 64);
     bv (128 + (r / 64) mod 64); bv (128 + r mod 64)].

Definition enc_rune (r : rune) : bytes :=
  enc_valid (if valid_rune r then r else rune_error).

Fixpoint utf8_encode (rs : list rune) : bytes :=
  match rs with
  | [] => []
  | r :: rs' => enc_rune r ++ utf8_encode rs'
  end.

Definition is_cont (c : ascii) : bool := in_range 128 191 (vb c).

(** Accepted second bytes after a given leading byte. *)
Definition ok2 (c0 c1 : ascii) : bool :=
  in_range 194 223 (vb c0) && is_cont c1.

Definition ok3 (c0 c1 c2 : ascii) : bool :=
  is_cont c2 &&
  (if (vb c0 =? 224)%N then in_range 160 191 (vb c1)
   else if (vb c0 =? 237)%N then in_range 128 159 (vb c1)
   else in_range 225 239 (vb c0) && is_cont c1).

Definition ok4 (c0 c1 c2 c3 : ascii) : bool :=
  is_cont c2 && is_cont c3 &&
  (if (vb c0 =? 240)%N then in_range 144 191 (vb c1)
   else if (vb c0 =? 244)%N then in_range 128 143 (vb c1)
   else in_range 241 243 (vb c0) && is_cont c1).

Definition rune2 (c0 c1 : ascii) : rune :=
  ((vb c0 - 192) * 64 + (vb c1 - 128))%N.
Definition rune3 (c0 c1 c2 : ascii) : rune :=
  ((vb c0 - 224) * 4096 + (vb c1 - 128) * 64 + (vb c2 - 128))%N.
Definition rune4 (c0 c1 c2 c3 : ascii) : rune :=
  ((vb c0 - 240) * 262144 + (vb c1 - 128) * 4096 + (vb c2 - 128) * 64
   + (vb c3 - 128))%N.

(** [for _, r := range s]: each invalid byte yields one U+FFFD. *)
Fixpoint utf8_decode (s : bytes) : list rune :=
  match s with
  | [] => []
  | c0 :: s1 =>
      if (vb c0 <? 128)%N then vb c0 :: utf8_decode s1
      else
        match s1 with
        | [] => [rune_error]
        | c1 :: s2 =>
            if ok2 c0 c1 then rune2 c0 c1 :: utf8_decode s2
            else
              match s2 with
              | [] => rune_error :: utf8_decode s1
              | c2 :: s3 =>
                  if ok3 c0 c1 c2 then rune3 c0 c1 c2 :: utf8_decode s3
                  else
                    match s3 with
                    | [] => rune_error :: utf8_decode s1
                    | c3 :: s4 =>
                        if ok4 c0 c1 c2 c3 then rune4 c0 c1 c2 c3 :: utf8_decode s4
                        else rune_error :: utf8_decode s1
                    end
              end
        end
  end.

(** Valid UTF-8 text: the encoding of some sequence of scalar values. *)
Definition valid_utf8 (s : bytes) : Prop :=
  exists rs, Forall (fun r => valid_rune r = true) rs /\ s = utf8_encode rs.

Definition is_ascii (s : bytes) : bool := forallb (fun c => (vb c <? 128)%N) s.

(** * Lemmas *)

Ltac Zify.zify_post_hook ::= Z.to_euclidean_division_equations.

Lemma utf8_decode_cons c0 s1 :
  utf8_decode (c0 :: s1) =
      if (vb c0 <? 128)%N then vb c0 :: utf8_decode s1
      else
        match s1 with
        | [] => [rune_error]
        | c1 :: s2 =>
            if ok2 c0 c1 then rune2 c0 c1 :: utf8_decode s2
            else
              match s2 with
              | [] => rune_error :: utf8_decode s1
              | c2 :: s3 =>
                  if ok3 c0 c1 c2 then rune3 c0 c1 c2 :: utf8_decode s3
                  else
                    match s3 with
                    | [] => rune_error :: utf8_decode s1
                    | c3 :: s4 =>
                        if ok4 c0 c1 c2 c3 then rune4 c0 c1 c2 c3 :: utf8_decode s4
                        else rune_error :: utf8_decode s1
                    end
              end
        end.
Proof. reflexivity. Qed.

Lemma decode_enc_valid r s :
  valid_rune r = true -> utf8_decode (enc_valid r ++ s) = r :: utf8_decode s.
Proof.
  unfold valid_rune, in_range, enc_valid; intros Hv.
  destruct (r <? 128)%N eqn:E1; [|destruct (r <? 2048)%N eqn:E2; [|destruct (r <? 65536)%N eqn:E3]];
    cbn [app]; rewrite utf8_decode_cons.
  - rewrite vb_bv by lia. rewrite E1. reflexivity.
  - rewrite vb_bv by lia.
    replace (192 + r / 64 <? 128)%N with false by lia.
    replace (ok2 _ _) with true; [f_equal|].
    + unfold rune2. rewrite !vb_bv by lia. lia.
    + unfold ok2, is_cont, in_range. rewrite !vb_bv by lia. lia.
  - rewrite vb_bv by lia.
    replace (224 + r / 4096 <? 128)%N with false by lia.
    replace (ok2 _ _) with false.
    2:{ unfold ok2, is_cont, in_range. rewrite !vb_bv by lia. lia. }
    replace (ok3 _ _ _) with true; [f_equal|].
    + unfold rune3. rewrite !vb_bv by lia. lia.
    + unfold ok3, is_cont, in_range. rewrite !vb_bv by lia.
      destruct (224 + r / 4096 =? 224)%N eqn:H1; [|destruct (224 + r / 4096 =? 237)%N eqn:H2]; lia.
  - rewrite vb_bv by lia.
    replace (240 + r / 262144 <? 128)%N with false by lia.
    replace (ok2 _ _) with false.
    2:{ unfold ok2, is_cont, in_range. rewrite !vb_bv by lia. lia. }
    replace (ok3 _ _ _) with false.
    2:{ unfold ok3, is_cont, in_range. rewrite !vb_bv by lia.
        destruct (240 + r / 262144 =? 224)%N eqn:H1; [|destruct (240 + r / 262144 =? 237)%N eqn:H2]; lia. }
    replace (ok4 _ _ _ _) with true; [f_equal|].
    + unfold rune4. rewrite !vb_bv by lia. lia.
    + unfold ok4, is_cont, in_range. rewrite !vb_bv by lia.
      destruct (240 + r / 262144 =? 240)%N eqn:H1; [|destruct (240 + r / 262144 =? 244)%N eqn:H2]; lia.
Qed.

Lemma decode_enc_rune r s :
  valid_rune r = true -> utf8_decode (enc_rune r ++ s) = r :: utf8_decode s.
Proof. intros H. unfold enc_rune. rewrite H. now apply decode_enc_valid. Qed.

Lemma utf8_decode_encode rs :
  Forall (fun r => valid_rune r = true) rs -> utf8_decode (utf8_encode rs) = rs.
Proof.
  induction 1 as [|r rs Hr _ IH]; simpl; [reflexivity|].
  rewrite decode_enc_rune by exact Hr. now rewrite IH.
Qed.

Lemma utf8_encode_app x y : utf8_encode (x ++ y) = utf8_encode x ++ utf8_encode y.
Proof. induction x; simpl; [reflexivity|]. now rewrite IHx, app_assoc. Qed.

Lemma utf8_decode_encode_app rs s :
  Forall (fun r => valid_rune r = true) rs ->
  utf8_decode (utf8_encode rs ++ s) = rs ++ utf8_decode s.
Proof.
  induction 1 as [|r rs Hr _ IH]; simpl; [reflexivity|].
  rewrite <- app_assoc, decode_enc_rune by exact Hr. now rewrite IH.
Qed.

Lemma valid_utf8_encode_decode s : valid_utf8 s -> utf8_encode (utf8_decode s) = s.
Proof. intros (rs & H & ->). now rewrite utf8_decode_encode. Qed.

Lemma valid_rune_error : valid_rune rune_error = true.
Proof. reflexivity. Qed.

Ltac bool_prop :=
  repeat match goal with
  | H : (_ && _) = true |- _ => apply andb_true_iff in H; destruct H
  | H : (_ || _) = false |- _ => apply orb_false_iff in H; destruct H
  end.

Lemma ok2_valid c0 c1 : ok2 c0 c1 = true -> valid_rune (rune2 c0 c1) = true.
Proof.
  unfold ok2, is_cont, in_range, valid_rune, rune2, in_range; intros H.
  pose proof (vb_lt c0). pose proof (vb_lt c1). lia.
Qed.

Lemma ok3_valid c0 c1 c2 : ok3 c0 c1 c2 = true -> valid_rune (rune3 c0 c1 c2) = true.
Proof.
  unfold ok3, is_cont, in_range, valid_rune, rune3, in_range; intros H.
  destruct (vb c0 =? 224)%N eqn:E1; [lia|].
  destruct (vb c0 =? 237)%N eqn:E2; lia.
Qed.

Lemma ok4_valid c0 c1 c2 c3 :
  ok4 c0 c1 c2 c3 = true -> valid_rune (rune4 c0 c1 c2 c3) = true.
Proof.
  unfold ok4, is_cont, in_range, valid_rune, rune4, in_range; intros H.
  destruct (vb c0 =? 240)%N eqn:E1; [lia|].
  destruct (vb c0 =? 244)%N eqn:E2; lia.
Qed.

Lemma utf8_decode_valid s : Forall (fun r => valid_rune r = true) (utf8_decode s).
Proof.
  remember (length s) as n eqn:Hn.
  assert (Hle : length s <= n) by lia. clear Hn.
  revert s Hle; induction n as [|n IH]; intros s Hle.
  - destruct s; [constructor|simpl in Hle; lia].
  - destruct s as [|c0 s1]; [constructor|].
    rewrite utf8_decode_cons. simpl in Hle.
    destruct (vb c0 <? 128)%N eqn:E0.
    { constructor; [unfold valid_rune; lia|apply IH; lia]. }
    destruct s1 as [|c1 s2]; [repeat constructor|]. simpl in Hle.
    destruct (ok2 c0 c1) eqn:E2.
    { constructor; [now apply ok2_valid|apply IH; simpl in *; lia]. }
    destruct s2 as [|c2 s3]; [constructor; [reflexivity|apply IH; simpl in *; lia]|].
    destruct (ok3 c0 c1 c2) eqn:E3.
    { constructor; [now apply ok3_valid|apply IH; simpl in *; lia]. }
    destruct s3 as [|c3 s4]; [constructor; [reflexivity|apply IH; simpl in *; lia]|].
    destruct (ok4 c0 c1 c2 c3) eqn:E4.
    { constructor; [now apply ok4_valid|apply IH; simpl in *; lia]. }
    constructor; [reflexivity|apply IH; simpl in *; lia].
Qed.

Lemma utf8_encode_valid rs : valid_utf8 (utf8_encode rs).
Proof.
  exists (map (fun r => if valid_rune r then r else rune_error) rs); split.
  - induction rs; simpl; constructor; auto. destruct (valid_rune a) eqn:E; auto.
  - induction rs as [|r rs IH]; simpl; [reflexivity|]. rewrite IH. f_equal.
    unfold enc_rune. destruct (valid_rune r) eqn:E.
    + now rewrite E.
    + now rewrite valid_rune_error.
Qed.

Lemma ascii_decode s : is_ascii s = true -> utf8_decode s = map vb s.
Proof.
  unfold is_ascii.
  induction s as [|c s IH]; simpl forallb; intros H; [reflexivity|].
  apply andb_true_iff in H; destruct H as [H1 H2].
  rewrite utf8_decode_cons, H1. simpl. now rewrite IH.
Qed.

Lemma ascii_encode s : is_ascii s = true -> utf8_encode (map vb s) = s.
Proof.
  unfold is_ascii.
  induction s as [|c s IH]; simpl; intros H; [reflexivity|].
  apply andb_true_iff in H; destruct H as [H1 H2].
  rewrite IH by exact H2.
  unfold enc_rune, valid_rune. replace (vb c <? 55296)%N with true by lia. simpl.
  unfold enc_valid. rewrite H1. simpl. now rewrite bv_vb.
Qed.

Lemma ascii_valid_utf8 s : is_ascii s = true -> valid_utf8 s.
Proof. intros H. rewrite <- (ascii_encode s H). apply utf8_encode_valid. Qed.

Lemma valid_utf8_app x y : valid_utf8 x -> valid_utf8 y -> valid_utf8 (x ++ y).
Proof.
  intros (r1 & H1 & ->) (r2 & H2 & ->). exists (r1 ++ r2). split.
  - apply Forall_app; auto.
  - now rewrite utf8_encode_app.
Qed.

Lemma utf8_decode_app_valid x y :
  valid_utf8 x -> utf8_decode (x ++ y) = utf8_decode x ++ utf8_decode y.
Proof.
  intros (r1 & H1 & ->). rewrite utf8_decode_encode_app by exact H1.
  now rewrite utf8_decode_encode.
Qed.

Lemma enc_rune_ascii r : (r < 128)%N -> enc_rune r = [bv r].
Proof.
  intros H. unfold enc_rune, valid_rune.
  replace (r <? 55296)%N with true by lia. simpl.
  unfold enc_valid. now replace (r <? 128)%N with true by lia.
Qed.

Lemma utf8_encode_nil_inv rs : utf8_encode rs = [] -> rs = [].
Proof.
  destruct rs as [|r rs]; [reflexivity|]. simpl. unfold enc_rune, enc_valid.
  destruct (valid_rune r).
  - destruct (r <? 128)%N; [discriminate|].
    destruct (r <? 2048)%N; [discriminate|]. destruct (r <? 65536)%N; discriminate.
  - discriminate.
Qed.

Lemma utf8_decode_nil_inv s : utf8_decode s = [] -> s = [].
Proof.
  destruct s as [|c0 s]; [reflexivity|]. rewrite utf8_decode_cons.
  destruct (vb c0 <? 128)%N; [discriminate|].
  destruct s as [|c1 s]; [discriminate|]. destruct (ok2 c0 c1); [discriminate|].
  destruct s as [|c2 s]; [discriminate|]. destruct (ok3 c0 c1 c2); [discriminate|].
  destruct s as [|c3 s]; [discriminate|]. destruct (ok4 c0 c1 c2 c3); discriminate.
Qed.
