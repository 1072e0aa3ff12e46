(** Lemmas about Base64. *)
From Verif Require Import Base Utf8 Base64 Spec_Base64.

Lemma b64_char_val_aux :
  forallb (fun n => match b64_val (b64_char (N.of_nat n)) with
                    | Some v => (v =? N.of_nat n)%N
                    | None => false end
                    && negb (is_nl (b64_char (N.of_nat n)))) (seq 0 64) = true.
Proof. reflexivity. Qed.

Lemma b64_char_val n :
  (n < 64)%N -> b64_val (b64_char n) = Some n /\ is_nl (b64_char n) = false.
Proof.
  intros H. pose proof b64_char_val_aux as A. rewrite forallb_forall in A.
  specialize (A (N.to_nat n)). rewrite N2Nat.id in A.
  destruct (b64_val (b64_char n)) as [v|] eqn:E.
  - assert (In (N.to_nat n) (seq 0 64)) by (apply in_seq; lia).
    specialize (A H0). apply andb_true_iff in A; destruct A as [A1 A2].
    apply N.eqb_eq in A1; subst. split; [reflexivity|]. now apply negb_true_iff in A2.
  - assert (In (N.to_nat n) (seq 0 64)) by (apply in_seq; lia).
    specialize (A H0). discriminate.
Qed.

Lemma is_nl_val c v : b64_val c = Some v -> is_nl c = false.
Proof.
  unfold b64_val, is_nl, in_range. intros H.
  destruct (vb c =? 10)%N eqn:E1; [apply N.eqb_eq in E1; rewrite E1 in H; discriminate|].
  destruct (vb c =? 13)%N eqn:E2; [apply N.eqb_eq in E2; rewrite E2 in H; discriminate|].
  reflexivity.
Qed.

Definition no_nl (s : bytes) : bytes := filter (fun c => negb (is_nl c)) s.

Lemma skip_nl_filter s : is_nil (skip_nl s) = is_nil (no_nl s).
Proof. induction s as [|c s IH]; [reflexivity|]. simpl. destruct (is_nl c); simpl; auto. Qed.

Lemma skip_nl_cons s d s2 : skip_nl s = d :: s2 -> no_nl s = d :: no_nl s2 /\ is_nl d = false.
Proof.
  induction s as [|c s IH]; simpl; [discriminate|].
  destruct (is_nl c) eqn:E; simpl; [exact IH|]. intros [= <- <-]. auto.
Qed.

Lemma skip_nl_nil s : skip_nl s = [] -> no_nl s = [].
Proof.
  induction s as [|c s IH]; simpl; [reflexivity|].
  destruct (is_nl c) eqn:E; simpl; [exact IH|]. discriminate.
Qed.

Lemma b64_loop_no_nl s : forall acc, b64_loop acc s = b64_loop acc (no_nl s).
Proof.
  induction s as [|c s IH]; intros acc; [reflexivity|]. simpl.
  destruct (is_nl c) eqn:E; simpl; [apply IH|]. rewrite E.
  destruct (b64_val c) as [v|].
  - destruct acc as [|x [|y [|z [|w l]]]]; rewrite IH; reflexivity.
  - destruct (is_pad c); [|reflexivity].
    destruct acc as [|x [|y [|z [|w l]]]]; try reflexivity.
    + destruct (skip_nl s) as [|d s2] eqn:E2.
      * rewrite (skip_nl_nil _ E2). reflexivity.
      * apply skip_nl_cons in E2. destruct E2 as [-> Hd]. simpl. rewrite Hd.
        destruct (is_pad d); [|reflexivity]. rewrite skip_nl_filter.
        f_equal. clear. induction (no_nl s2) as [|c l IH] eqn:E; [reflexivity|].
        simpl. assert (Hc : is_nl c = false).
        { assert (In c (no_nl s2)) by (rewrite E; now left).
          apply filter_In in H. now apply negb_true_iff. }
        now rewrite Hc.
    + rewrite skip_nl_filter. f_equal.
      destruct (no_nl s) as [|c' l] eqn:E2; [reflexivity|]. simpl.
      assert (Hc : is_nl c' = false).
      { assert (In c' (no_nl s)) by (rewrite E2; now left).
        apply filter_In in H. now apply negb_true_iff. }
      now rewrite Hc.
Qed.

Lemma b64_step4 x y z w s :
  (x < 64)%N -> (y < 64)%N -> (z < 64)%N -> (w < 64)%N ->
  b64_loop [] (b64_char x :: b64_char y :: b64_char z :: b64_char w :: s) =
  (let (r, ok) := b64_loop [] s in (q3 x y z w ++ r, ok)).
Proof.
  intros Hx Hy Hz Hw. simpl.
  destruct (b64_char_val x Hx) as [-> ->].
  destruct (b64_char_val y Hy) as [-> ->].
  destruct (b64_char_val z Hz) as [-> ->].
  destruct (b64_char_val w Hw) as [-> ->]. reflexivity.
Qed.

Lemma bv_eq n c : n = vb c -> bv n = c.
Proof. intros ->. apply bv_vb. Qed.

Lemma q3_bytes x y z :
  q3 (vb x / 4) (vb x mod 4 * 16 + vb y / 16) (vb y mod 16 * 4 + vb z / 64) (vb z mod 64)
  = [x; y; z].
Proof.
  pose proof (vb_lt x). pose proof (vb_lt y). pose proof (vb_lt z). unfold q3.
  set (v := (_ + _)%N). assert (Hv : v = (vb x * 65536 + vb y * 256 + vb z)%N) by (unfold v; lia).
  rewrite Hv. repeat f_equal; apply bv_eq; lia.
Qed.

Lemma b64_loop_encode : forall s, b64_loop [] (b64_encode s) = (s, true).
Proof.
  assert (H : forall n s, length s <= n -> b64_loop [] (b64_encode s) = (s, true)).
  { induction n as [|n IH]; intros s Hl.
    - destruct s; [reflexivity|simpl in Hl; lia].
    - destruct s as [|x [|y [|z s]]].
      + reflexivity.
      + cbn [b64_encode]. pose proof (vb_lt x). simpl.
        destruct (b64_char_val (vb x / 4)) as [-> ->]; [lia|].
        destruct (b64_char_val (vb x mod 4 * 16)) as [-> ->]; [lia|].
        unfold is_nl, is_pad, b64_val; simpl. repeat f_equal. apply bv_eq. lia.
      + cbn [b64_encode]. pose proof (vb_lt x). pose proof (vb_lt y). simpl.
        destruct (b64_char_val (vb x / 4)) as [-> ->]; [lia|].
        destruct (b64_char_val (vb x mod 4 * 16 + vb y / 16)) as [-> ->]; [lia|].
        destruct (b64_char_val (vb y mod 16 * 4)) as [-> ->]; [lia|].
        unfold is_nl, is_pad, b64_val; simpl. repeat f_equal; apply bv_eq; lia.
      + cbn [b64_encode]. pose proof (vb_lt x). pose proof (vb_lt y). pose proof (vb_lt z).
        rewrite b64_step4 by lia. rewrite IH by (simpl in Hl; lia).
        rewrite q3_bytes. reflexivity. }
  intros s. now apply (H (length s)).
Qed.

Lemma b64_encode_no_nl : forall s, no_nl (b64_encode s) = b64_encode s.
Proof.
  assert (H : forall n s, length s <= n -> no_nl (b64_encode s) = b64_encode s).
  { induction n as [|n IH]; intros s Hl.
    - destruct s; [reflexivity|simpl in Hl; lia].
    - destruct s as [|x [|y [|z s]]]; [reflexivity| | |]; cbn [b64_encode];
        pose proof (vb_lt x); try pose proof (vb_lt y); try pose proof (vb_lt z); unfold no_nl; simpl.
      + destruct (b64_char_val (vb x / 4)) as [_ ->]; [lia|].
        destruct (b64_char_val (vb x mod 4 * 16)) as [_ ->]; [lia|]. reflexivity.
      + destruct (b64_char_val (vb x / 4)) as [_ ->]; [lia|].
        destruct (b64_char_val (vb x mod 4 * 16 + vb y / 16)) as [_ ->]; [lia|].
        destruct (b64_char_val (vb y mod 16 * 4)) as [_ ->]; [lia|]. reflexivity.
      + destruct (b64_char_val (vb x / 4)) as [_ ->]; [lia|].
        destruct (b64_char_val (vb x mod 4 * 16 + vb y / 16)) as [_ ->]; [lia|].
        destruct (b64_char_val (vb y mod 16 * 4 + vb z / 64)) as [_ ->]; [lia|].
        destruct (b64_char_val (vb z mod 64)) as [_ ->]; [lia|]. simpl. f_equal. f_equal. f_equal. f_equal.
        apply IH. simpl in Hl; lia. }
  intros s. now apply (H (length s)).
Qed.

Lemma wrapped_no_nl t s : wrapped t s -> no_nl t = no_nl s.
Proof.
  induction 1 as [|c t s _ IH|t s _ IH|t s _ IH]; simpl; auto.
  destruct (is_nl c); simpl; congruence.
Qed.

Lemma b64_decode_wrapped t s : wrapped t (b64_encode s) -> b64_decode t = (s, true).
Proof.
  intros H. unfold b64_decode. rewrite b64_loop_no_nl.
  rewrite (wrapped_no_nl _ _ H), b64_encode_no_nl. apply b64_loop_encode.
Qed.

Lemma wrapped_refl s : wrapped s s.
Proof. induction s; constructor; auto. Qed.

Lemma b64_decode_encode s : b64_decode (b64_encode s) = (s, true).
Proof. apply b64_decode_wrapped, wrapped_refl. Qed.

Lemma b64_encode_length s : length (b64_encode s) = (length s + 2) / 3 * 4.
Proof.
  assert (H : forall n s, length s <= n -> length (b64_encode s) = (length s + 2) / 3 * 4).
  { induction n as [|n IH]; intros s0 Hl.
    - destruct s0; [reflexivity|simpl in Hl; lia].
    - destruct s0 as [|x [|y [|z s0]]]; try reflexivity.
      cbn [b64_encode length]. rewrite IH by (simpl in Hl; lia).
      replace (S (S (S (length s0))) + 2) with (length s0 + 2 + 1 * 3) by lia.
      rewrite Nat.div_add by lia. lia. }
  now apply (H (length s)).
Qed.

Lemma b64_char_ascii n : (vb (b64_char n) <? 128)%N = true.
Proof.
  unfold b64_char. destruct (nth_in_or_default (N.to_nat n) b64_alphabet "A"%char) as [Hin| ->]; [|reflexivity].
  assert (A : forallb (fun c => (vb c <? 128)%N) b64_alphabet = true) by reflexivity.
  rewrite forallb_forall in A. now apply A.
Qed.

Lemma b64_encode_ascii : forall s, is_ascii (b64_encode s) = true.
Proof.
  assert (H : forall n s, length s <= n -> is_ascii (b64_encode s) = true).
  { induction n as [|n IH]; intros s Hl.
    - destruct s; [reflexivity|simpl in Hl; lia].
    - destruct s as [|x [|y [|z s]]]; [reflexivity| | |]; cbn [b64_encode]; unfold is_ascii; simpl;
        rewrite ?b64_char_ascii; try reflexivity.
      simpl. apply IH. simpl in Hl; lia. }
  intros s. now apply (H (length s)).
Qed.
