(** More about opening vaults: what can be said of any vault that opens, broken
    band files, forged entries. *)
From Verif Require Import Base Utf8 GoStrings GoStringsProof Base64 Spec_Base64 Base64Proof Float64
  Float64Proof Json Spec_Json JsonProof JsonPrint Crypto Spec_Crypto CryptoProof Path Fs FsProof Domain
  DomainProof Spec_Domain KeyService Repos ItemService Spec_Item ItemProof Session SessionProof
  Spec_Vault VaultProof.

(** ** Objects followed by something *)

Lemma obj_parse n m t :
  json_text n (JObj m) t ->
  forall f d rest, length t <= f -> (d + N.of_nat n <= 10000)%N ->
    pvalue f d (t ++ rest) = JOk (JObj m) true rest.
Proof.
  intros H f d rest Hf Hd. inversion H as [| | | | | | |n' w Hw E1 E2|n' ms t' Hm E1 E2]; subst.
  - destruct f as [|f]; [simpl in Hf; lia|].
    simpl app. rewrite <- app_assoc. simpl app. cbn [pvalue].
    rewrite skip_ws_head by reflexivity. rewrite (is_max_depth d n' Hd).
    change (vb "{" =? 123)%N with true. cbv iota.
    rewrite skip_ws_app by exact Hw. rewrite skip_ws_head by reflexivity. reflexivity.
  - destruct f as [|f]; [simpl in Hf; lia|].
    assert (Hne : exists r, skip_ws (t' ++ "}"%char :: rest) = quote :: r).
    { destruct Hm; rewrite <- !app_assoc, skip_ws_app by assumption; simpl app;
        rewrite skip_ws_head by reflexivity; eauto. }
    simpl app. rewrite <- app_assoc. simpl app. cbn [pvalue].
    rewrite skip_ws_head by reflexivity. rewrite (is_max_depth d n' Hd).
    change (vb "{" =? 123)%N with true. cbv iota.
    destruct Hne as (r & Hs). rewrite Hs. change (vb quote =? 125)%N with false. cbv iota.
    assert (Hsk : pmembers f (d + 1) [] true (quote :: r) =
                  pmembers f (d + 1) [] true (t' ++ "}"%char :: rest)).
    { destruct f as [|f']; [reflexivity|]. cbn [pmembers]. rewrite Hs.
      now rewrite skip_ws_head by reflexivity. }
    rewrite Hsk, (proj2 (proj2 json_text_parse) n' ms t' Hm); [reflexivity| |lia].
    simpl in Hf. rewrite app_length in Hf. simpl in Hf. lia.
Qed.

Lemma unmarshal_trailing n m w t rest :
  (N.of_nat n <= 10000)%N -> wsp w -> json_text n (JObj m) t -> skip_ws rest <> [] ->
  unmarshal_map (w ++ t ++ rest) = (None, false).
Proof.
  intros Hn Hw Ht Hr. unfold unmarshal_map, unmarshal. rewrite pvalue_skip by exact Hw.
  rewrite (obj_parse n m t Ht); [| |lia].
  - destruct (skip_ws rest); [congruence|reflexivity].
  - rewrite !app_length. lia.
Qed.

(** Members followed by a comma. *)
Lemma members_then_comma n ms t : members_text n ms t ->
  forall f d acc rest, length t < f -> (d + N.of_nat n <= 10000)%N ->
    exists f' acc', pmembers f d acc true (t ++ ","%char :: rest) = pmembers f' d acc' true rest.
Proof.
  revert n ms t.
  apply (members_text_mut (fun _ _ _ => True) (fun _ _ _ => True)
    (fun n ms t => forall f d acc rest, length t < f -> (d + N.of_nat n <= 10000)%N ->
      exists f' acc', pmembers f d acc true (t ++ ","%char :: rest) = pmembers f' d acc' true rest));
    try (intros; exact I).
  - intros n w1 k kt w2 w3 v t w4 H1 Hk H2 H3 Hv _ H4 f d acc rest Hf Hd.
    destruct f as [|f]; [lia|]. repeat (rewrite app_length in Hf || simpl length in Hf).
    destruct (str_text_units _ _ Hk) as (us & Hp & Hu).
    cbn [pmembers]. rewrite <- !app_assoc, skip_ws_app by exact H1. simpl app.
    rewrite skip_ws_head by reflexivity. change (vb quote =? 34)%N with true. cbv iota.
    rewrite <- app_assoc. simpl app. rewrite Hp.
    rewrite <- app_assoc, skip_ws_app by exact H2. simpl app.
    rewrite skip_ws_head by reflexivity.
    change (vb ":" =? 58)%N with true. cbv iota.
    rewrite <- !app_assoc, pvalue_skip by exact H3.
    rewrite (proj1 json_text_parse _ _ _ Hv); [|lia|lia|apply delim_ws; [exact H4|reflexivity]].
    rewrite skip_ws_app by exact H4. rewrite skip_ws_head by reflexivity.
    change (vb "," =? 44)%N with true. cbv iota. simpl andb. eauto.
  - intros n w1 k kt w2 w3 v t w4 ms t' H1 Hk H2 H3 Hv _ H4 Hms IH2 f d acc rest Hf Hd.
    destruct f as [|f]; [lia|]. repeat (rewrite app_length in Hf || simpl length in Hf).
    destruct (str_text_units _ _ Hk) as (us & Hp & Hu).
    cbn [pmembers]. rewrite <- !app_assoc, skip_ws_app by exact H1. simpl app.
    rewrite skip_ws_head by reflexivity. change (vb quote =? 34)%N with true. cbv iota.
    rewrite <- app_assoc. simpl app. rewrite Hp.
    rewrite <- app_assoc, skip_ws_app by exact H2. simpl app.
    rewrite skip_ws_head by reflexivity.
    change (vb ":" =? 58)%N with true. cbv iota.
    rewrite <- !app_assoc, pvalue_skip by exact H3.
    rewrite (proj1 json_text_parse _ _ _ Hv); [|lia|lia|apply delim_ws; [exact H4|reflexivity]].
    rewrite skip_ws_app by exact H4. simpl app. rewrite skip_ws_head by reflexivity.
    change (vb "," =? 44)%N with true. cbv iota. simpl andb.
    destruct (IH2 f d (mset (unquote us []) v acc) rest) as (f' & acc' & E); [lia|lia|].
    exists f', acc'. exact E.
Qed.

(** Where a member is expected, a comma or a brace is an error. *)
Lemma pmembers_bad f d acc c rest :
  In c [","; "}"]%char -> pmembers f d acc true (c :: rest) = JBad \/ f = 0.
Proof.
  intros [<-|[<-|[]]]; (destruct f as [|f]; [auto|left]);
    cbn [pmembers]; rewrite skip_ws_head by reflexivity; reflexivity.
Qed.

Lemma unmarshal_comma n ms t c rest :
  (N.of_nat n <= 9999)%N -> members_text n ms t -> In c [","; "}"]%char ->
  unmarshal_map ("{"%char :: t ++ ","%char :: c :: rest) = (None, false).
Proof.
  intros Hn Ht Hc. unfold unmarshal_map, unmarshal. set (s := "{"%char :: _).
  assert (Hf := unmarshal_fuel s).
  assert (Hb : pvalue (S (2 * length s)) 0 s = JBad \/ pvalue (S (2 * length s)) 0 s = JFuel).
  { assert (Hne : exists r, skip_ws (t ++ ","%char :: c :: rest) = quote :: r).
    { destruct Ht; rewrite <- !app_assoc, skip_ws_app by assumption; simpl app;
        rewrite skip_ws_head by reflexivity; eauto. }
    assert (Hls : length t + 2 <= length s) by (unfold s; simpl; rewrite app_length; simpl; lia).
    remember (2 * length s) as F eqn:HF. unfold s. cbn [pvalue].
    rewrite skip_ws_head by reflexivity.
    change (vb "{" =? 123)%N with true. change (max_depth <=? 0)%N with false. cbv iota.
    destruct Hne as (r & Hs). rewrite Hs. change (vb quote =? 125)%N with false. cbv iota.
    assert (Hsk : pmembers F (0 + 1) [] true (quote :: r) =
                  pmembers F (0 + 1) [] true (t ++ ","%char :: c :: rest)).
    { destruct F as [|f']; [reflexivity|]. cbn [pmembers]. rewrite Hs.
      now rewrite skip_ws_head by reflexivity. }
    rewrite Hsk.
    destruct (members_then_comma n ms t Ht F (0 + 1) [] (c :: rest)) as (f' & acc' & E); [lia|lia|].
    rewrite E. destruct (pmembers_bad f' (0 + 1) acc' c rest Hc) as [->| ->]; auto. }
  destruct Hb as [->|E]; [reflexivity|]. now elim Hf.
Qed.

Lemma unmarshal_brace_comma rest : unmarshal_map ("{"%char :: ","%char :: rest) = (None, false).
Proof.
  unfold unmarshal_map, unmarshal. cbn [length].
  replace (S (2 * S (S (length rest)))) with (S (S (S (S (S (2 * length rest)))))) by lia.
  cbn [pvalue]. rewrite skip_ws_head by reflexivity.
  change (vb "{" =? 123)%N with true. change (max_depth <=? 0)%N with false. cbv iota.
  rewrite skip_ws_head by reflexivity. change (vb "," =? 125)%N with false. cbv iota.
  cbn [pmembers]. rewrite skip_ws_head by reflexivity. reflexivity.
Qed.

(** ** Broken band files *)

Definition empty_band : bytes := b "ld({});".

(** Some bands, all with members, and what cat_bands makes of those after them. *)
Lemma cat_bands_app mss cs cs' r :
  Forall2 band_text mss cs -> cs <> [] -> cat_bands cs' = Ok r ->
  exists n t, (N.of_nat n <= 9999)%N /\ members_text n (concat mss) t /\
              cat_bands (map Some cs ++ cs') = Ok (t ++ ","%char :: r).
Proof.
  intros H. induction H as [|ms c mss cs Hc H IH]; intros Hne Hr; [congruence|].
  destruct Hc as (n & t & Hn & Ht & ->). cbn [map app cat_bands].
  assert (Hl : length (b "ld({" ++ t ++ b "});") = length t + 7).
  { rewrite !app_length. simpl. lia. }
  cbn zeta. rewrite Hl. destruct (Nat.ltb_spec (length t + 7) 7) as [Hx|_]; [lia|].
  replace (length t + 7 - 3 - 4) with (length t) by lia.
  rewrite (skipn_app_exact (b "ld({") _ 4) by reflexivity.
  rewrite firstn_app_exact by reflexivity.
  destruct cs as [|c2 cs].
  - inversion H; subst. exists n, t. simpl. rewrite app_nil_r. rewrite Hr. auto.
  - destruct IH as (n2 & t2 & Hn2 & Ht2 & E); [discriminate|exact Hr|].
    exists (Nat.max n n2), (t ++ ","%char :: t2).
    split; [lia|]. split.
    + cbn [concat]. apply members_text_app;
        [apply (members_text_mono n)|apply (members_text_mono n2)]; auto; lia.
    + rewrite E. cbn [rbind]. rewrite <- app_assoc. reflexivity.
Qed.

(** Files long enough to be cut can be joined, and the result ends in a comma. *)
Lemma cat_bands_total cs :
  Forall (fun c => 7 <= length c) cs ->
  exists r, cat_bands (map Some cs) = Ok r /\
            (cs <> [] -> exists x, r = x ++ [","%char]).
Proof.
  induction 1 as [|c cs Hc H IH]; [exists []; split; [reflexivity|congruence]|].
  destruct IH as (r & E & Hr). cbn [map cat_bands]. cbn zeta.
  destruct (Nat.ltb_spec (length c) 7) as [Hx|_]; [lia|]. rewrite E. cbn [rbind].
  eexists. split; [reflexivity|]. intros _. destruct cs as [|c' cs].
  - simpl in E. injection E as <-. eauto.
  - destruct Hr as (x & ->); [discriminate|].
    exists (firstn (length c - 3 - 4) (skipn 4 c) ++ ","%char :: x). now rewrite <- app_assoc.
Qed.

Lemma removelast_cons_comma c x : removelast (c :: x ++ [","%char]) = c :: x.
Proof. change (c :: x ++ [","%char]) with ((c :: x) ++ [","%char]). apply removelast_snoc. Qed.

Lemma load_contents_fatal O cs r m :
  cs <> [] -> cat_bands cs = Ok r ->
  unmarshal_map (removelast ("{"%char :: r) ++ b "}") = (m, false) -> load_contents O cs = fatal.
Proof.
  intros Hne Hc Hu. unfold load_contents. destruct cs as [|c cs]; [congruence|].
  rewrite Hc. cbn [rbind]. rewrite Hu. destruct m; reflexivity.
Qed.

(** An empty band beside another one. *)
Lemma empty_band_fatal O mss pre post :
  Forall2 band_text mss pre -> Forall (fun c => 7 <= length c) post ->
  pre <> [] \/ post <> [] ->
  load_contents O (map Some (pre ++ empty_band :: post)) = fatal.
Proof.
  intros Hpre Hpost Hne. destruct (cat_bands_total post Hpost) as (r & Er & Hr).
  assert (E : cat_bands (Some empty_band :: map Some post) = Ok (","%char :: r)).
  { cbn [cat_bands]. rewrite Er. reflexivity. }
  rewrite map_app. cbn [map].
  destruct pre as [|c pre].
  - cbn [map app]. destruct Hne as [Hne|Hne]; [congruence|]. destruct (Hr Hne) as (x & ->).
    eapply load_contents_fatal; [discriminate|exact E|].
    change (removelast ("{"%char :: ","%char :: x ++ [","%char])) with
      (removelast ("{"%char :: (","%char :: x) ++ [","%char])).
    rewrite removelast_cons_comma. apply unmarshal_brace_comma.
  - destruct (cat_bands_app mss (c :: pre) _ _ Hpre ltac:(discriminate) E) as (n & t & Hn & Ht & Ec).
    eapply load_contents_fatal; [|exact Ec|].
    { destruct (map Some pre); discriminate. }
    destruct post as [|p post].
    + simpl in Er. injection Er as <-.
      replace ("{"%char :: t ++ [","%char; ","%char]) with ("{"%char :: (t ++ [","%char]) ++ [","%char])
        by now rewrite <- app_assoc.
      rewrite removelast_cons_comma.
      change (("{"%char :: t ++ [","%char]) ++ b "}") with ("{"%char :: (t ++ [","%char]) ++ b "}").
      rewrite <- app_assoc. cbn [app].
      apply (unmarshal_comma n (concat mss) t "}"%char []); auto. right; left; reflexivity.
    + destruct Hr as (x & ->); [discriminate|].
      replace ("{"%char :: t ++ ","%char :: ","%char :: x ++ [","%char])
        with ("{"%char :: (t ++ ","%char :: ","%char :: x) ++ [","%char])
        by now rewrite <- app_assoc.
      rewrite removelast_cons_comma.
      change (("{"%char :: t ++ ","%char :: ","%char :: x) ++ b "}")
        with ("{"%char :: (t ++ ","%char :: ","%char :: x) ++ b "}").
      rewrite <- app_assoc. cbn [app].
      apply (unmarshal_comma n (concat mss) t ","%char); auto. left; reflexivity.
Qed.

(** The only band is empty. *)
Lemma only_empty_band O : oracles_ok O -> load_contents O [Some empty_band] = Ok [].
Proof.
  intros HO. unfold load_contents. change (cat_bands [Some empty_band]) with (Ok [","%char]). cbn [rbind].
  change (unmarshal_map (removelast ["{"; ","]%char ++ b "}")) with (Some (@nil (bytes * json)), true).
  cbv iota. assert (H := iter_perm O HO []). symmetry in H. apply Permutation_nil in H.
  change (o_iter O (@nil (bytes * json))) with (o_iter O []). rewrite H. reflexivity.
Qed.

(** A newline after a band. *)
Lemma newline_band_fatal O mss pre ms c post :
  Forall2 band_text mss pre -> band_text ms c -> Forall (fun c => 7 <= length c) post ->
  load_contents O (map Some (pre ++ (c ++ ["010"%char]) :: post)) = fatal.
Proof.
  intros Hpre (n0 & t0 & Hn0 & Ht0 & ->) Hpost.
  destruct (cat_bands_total post Hpost) as (r & Er & Hr).
  assert (E : cat_bands (Some ((b "ld({" ++ t0 ++ b "});") ++ ["010"%char]) :: map Some post)
              = Ok (t0 ++ "}"%char :: ","%char :: r)).
  { cbn [cat_bands]. cbn zeta. rewrite Er. cbn [rbind].
    assert (Hl : length ((b "ld({" ++ t0 ++ b "});") ++ ["010"%char]) = length t0 + 8).
    { rewrite !app_length. simpl. lia. }
    rewrite Hl. destruct (Nat.ltb_spec (length t0 + 8) 7) as [Hx|_]; [lia|].
    rewrite <- !app_assoc. rewrite (skipn_app_exact (b "ld({") _ 4) by reflexivity.
    replace (t0 ++ b "});" ++ ["010"%char]) with ((t0 ++ ["}"%char]) ++ b ");" ++ ["010"%char])
      by now rewrite <- app_assoc.
    rewrite firstn_app_exact by (rewrite app_length; simpl; lia).
    now rewrite <- app_assoc. }
  rewrite map_app. cbn [map].
  assert (G : exists n T, (N.of_nat n <= 9999)%N /\ members_text n (concat mss ++ ms) T /\
    cat_bands (map Some pre ++ Some ((b "ld({" ++ t0 ++ b "});") ++ ["010"%char]) :: map Some post)
    = Ok (T ++ "}"%char :: ","%char :: r)).
  { destruct pre as [|p pre].
    - inversion Hpre; subst. exists n0, t0. simpl concat. cbn [app map]. auto.
    - destruct (cat_bands_app mss (p :: pre) _ _ Hpre ltac:(discriminate) E) as (n & t & Hn & Ht & Ec).
      exists (Nat.max n n0), (t ++ ","%char :: t0). split; [lia|]. split.
      + apply members_text_app; [apply (members_text_mono n)|apply (members_text_mono n0)]; auto; lia.
      + rewrite Ec. now rewrite <- app_assoc. }
  destruct G as (n & T & Hn & HT & Ec).
  eapply load_contents_fatal; [|exact Ec|].
  { destruct (map Some pre); discriminate. }
  assert (Hj : json_text (S n) (JObj (obj_of (concat mss ++ ms))) ("{"%char :: T ++ ["}"%char])).
  { now constructor. }
  assert (G : exists x, removelast ("{"%char :: T ++ "}"%char :: ","%char :: r) ++ b "}" =
                ("{"%char :: T ++ ["}"%char]) ++ x /\ skip_ws x <> []).
  { destruct post as [|p post].
    - simpl in Er. injection Er as <-. exists (b "}").
      replace ("{"%char :: T ++ ["}"; ","]%char) with ("{"%char :: (T ++ ["}"%char]) ++ [","%char])
        by now rewrite <- app_assoc.
      rewrite removelast_cons_comma. split; [reflexivity|discriminate].
    - destruct Hr as (x & ->); [discriminate|]. exists (","%char :: x ++ b "}").
      replace ("{"%char :: T ++ "}"%char :: ","%char :: x ++ [","%char])
        with ("{"%char :: (T ++ "}"%char :: ","%char :: x) ++ [","%char])
        by now rewrite <- app_assoc.
      rewrite removelast_cons_comma. split; [|discriminate].
      cbn [app]. f_equal. rewrite <- !app_assoc. reflexivity. }
  destruct G as (x & Ex & Hx). rewrite Ex.
  refine (unmarshal_trailing (S n) (obj_of (concat mss ++ ms)) [] ("{"%char :: T ++ ["}"%char]) x _ _ Hj Hx);
    [lia|constructor].
Qed.

(** ** Any vault that opens *)

Lemma Forall2_len {A B} (R : A -> B -> Prop) l l' : Forall2 R l l' -> length l = length l'.
Proof. induction 1; simpl; congruence. Qed.

Section Opened.
Variable C : crypto.
Variable U : unicode.
Variable tz : Z -> Z.

Lemma unlock_inv O D v p s s' :
  unlock C U tz O D v p s = Ok (s', None) ->
  exists ks l, unlock_keys C (st_profile s) p = Ok (Some ks) /\
    decode_items C U tz O D (st_reg s) v ks = Ok l /\
    s' = MkState (st_profile s) (store_items l (st_items s)) (Some ks) (st_reg s).
Proof.
  unfold unlock. intros H. apply rbind_ok in H. destruct H as ([ks|] & Hk & H); [|discriminate].
  apply rbind_ok in H. destruct H as (l & Hl & H). injection H as <-. eauto.
Qed.

Lemma unlock_keys_len profile p ks : crypto_ok C ->
  unlock_keys C profile p = Ok (Some ks) -> length (k_master ks) = 32 /\ length (k_overview ks) = 32.
Proof.
  intros HC. unfold unlock_keys. intros Hk.
  apply rbind_ok in Hk. destruct Hk as ([[dk dm]|e] & Hd & Hk); [|discriminate].
  apply rbind_ok in Hk. destruct Hk as ([[mk mm]|e] & Hm & Hk); [|discriminate].
  apply rbind_ok in Hk. destruct Hk as ([[ok om]|e] & Ho & Hk); [|discriminate]. injection Hk as <-.
  cbn [k_master k_overview].
  unfold master_keys in Hm. apply rbind_ok in Hm. destruct Hm as (mt & _ & Hm).
  destruct (b64_decode mt) as [m [|]]; [|discriminate].
  unfold overview_keys in Ho. apply rbind_ok in Ho. destruct Ho as (ot & _ & Ho).
  destruct (b64_decode ot) as [o [|]]; [|discriminate].
  split; [exact (decode_keys_len32 C _ _ _ _ _ HC Hm)|exact (decode_keys_len32 C _ _ _ _ _ HC Ho)].
Qed.

Lemma obj_of_NoDup ms : NoDup (map fst (obj_of ms)).
Proof.
  unfold obj_of. assert (G : forall acc : gmap json, NoDup (map fst acc) ->
    NoDup (map fst (fold_left (fun m kv => mset (fst kv) (snd kv) m) ms acc))).
  { induction ms as [|kv ms IH]; intros acc H; [exact H|]. cbn [fold_left]. apply IH.
    now apply mset_NoDup. }
  apply G. constructor.
Qed.

(** The entries and the items they were decoded to, in the order of the runtime. *)
Lemma decode_items_pairs O D path L bands reg ks l :
  oracles_ok O -> vault_dir D path L -> plain_path path -> bands_at D L bands ->
  decode_items C U tz O D reg path ks = Ok l ->
  exists ros, Permutation (map fst ros) (entries_of bands) /\
    Forall (fun eo => exists raw, raw_of_entry (fst eo) = Ok raw /\
                                  decode_item C U tz reg ks raw = Ok (snd eo)) ros /\
    l = somes (map snd ros).
Proof.
  intros HO Hv Hp Hb H. unfold decode_items in H. apply rbind_ok in H. destruct H as (raws & Hr & H).
  apply rbind_ok in H. destruct H as (os & Ho & H). injection H as <-.
  rewrite (load_items_bands O D path L bands HO Hv Hp Hb) in Hr.
  assert (Hi := iter_perm O HO (entries_of bands)).
  apply rmap_inv in Hr. apply rmap_inv in Ho. revert raws os Hr Ho Hi.
  generalize (o_iter O (entries_of bands)) as es. intros es raws os Hr Ho Hi.
  exists (combine es os).
  assert (Hlen : length es = length os).
  { apply Forall2_len in Hr. apply Forall2_len in Ho. congruence. }
  split; [|split].
  - replace (map fst (combine es os)) with es; [exact Hi|].
    clear Hr Ho Hi. revert os Hlen. induction es as [|e es IH]; intros [|o os] Hl; simpl in *; try lia; auto.
    f_equal. apply IH. lia.
  - clear Hi Hlen. revert os Ho. induction Hr as [|e raw es raws He Hr IH]; intros os Ho; [constructor|].
    inversion Ho as [|? o ? os' Hd Ho']; subst. cbn [combine]. constructor; [|now apply IH].
    exists raw. auto.
  - f_equal. clear Hr Ho Hi. revert os Hlen.
    induction es as [|e es IH]; intros [|o os] Hl; simpl in *; try lia; auto. f_equal. apply IH. lia.
Qed.

Lemma as_str_has k m s : as_str (jget k (Some m)) = Ok s -> has_str k m s.
Proof.
  unfold has_str, jget. destruct (mget k m) as [[]|]; try discriminate. cbn. intros [= ->]. reflexivity.
Qed.

Lemma as_num_has k m f : as_num (jget k (Some m)) = Ok f -> mget k m = Some (JNum f).
Proof. unfold jget. destruct (mget k m) as [[]|]; try discriminate. cbn. intros [= ->]. reflexivity. Qed.

Lemma as_bool_has k m f : as_bool (jget k (Some m)) = Ok f -> mget k m = Some (JBool f).
Proof. unfold jget. destruct (mget k m) as [[]|]; try discriminate. cbn. intros [= ->]. reflexivity. Qed.

Lemma jnil_absent k m : jnil (jget k (Some m)) = true -> absent k m.
Proof. unfold jget, absent. destruct (mget k m) as [[]|]; try discriminate; auto. Qed.

Lemma decode_keys_authentic blob key mac ks :
  decode_keys C blob key mac = Ok (Val ks) -> authentic C mac blob.
Proof.
  unfold decode_keys. intros H. apply rbind_ok in H. destruct H as ([r buf] & H & H').
  apply decode_opdata_auth in H. destruct H as [Hl [E|[-> _]]]; [|discriminate].
  exists (firstn (length blob - 32) blob). rewrite E. symmetry. apply firstn_skipn.
Qed.

(** What reading an entry says about it. *)
Lemma raw_of_entry_inv uid e raw :
  raw_of_entry (uid, e) = Ok raw ->
  r_uid raw = uid /\
  exists m created updated,
    e = JObj m /\ has_str (b "category") m (r_cat raw) /\
    mget (b "created") m = Some (JNum created) /\ r_created raw = f64_to_int64 created /\
    mget (b "updated") m = Some (JNum updated) /\ r_updated raw = f64_to_int64 updated /\
    (absent (b "trashed") m /\ r_trashed raw = false \/
     mget (b "trashed") m = Some (JBool (r_trashed raw))) /\
    has_str (b "d") m (r_details raw) /\ has_str (b "k") m (r_keys raw) /\
    has_str (b "o") m (r_overview raw).
Proof.
  unfold raw_of_entry. cbn [fst snd]. intros H.
  apply rbind_ok in H. destruct H as (m & Hm & H).
  apply rbind_ok in H. destruct H as (cr & Hcr & H).
  apply rbind_ok in H. destruct H as (up & Hup & H).
  apply rbind_ok in H. destruct H as (tr & Htr & H).
  apply rbind_ok in H. destruct H as (cat & Hcat & H).
  apply rbind_ok in H. destruct H as (d & Hd & H).
  apply rbind_ok in H. destruct H as (h & Hh & H).
  apply rbind_ok in H. destruct H as (k & Hk & H).
  apply rbind_ok in H. destruct H as (o & Ho & H). injection H as <-.
  cbn [r_uid r_cat r_created r_updated r_trashed r_details r_keys r_overview]. split; [reflexivity|].
  exists m, cr, up.
  split; [destruct e; try discriminate Hm; injection Hm as ->; reflexivity|].
  split; [now apply as_str_has|]. split; [now apply as_num_has|]. split; [reflexivity|].
  split; [now apply as_num_has|]. split; [reflexivity|].
  split; [|split; [now apply as_str_has|split; now apply as_str_has]].
  destruct (jnil (jget (b "trashed") (Some m))) eqn:E.
  - left. split; [now apply jnil_absent|congruence].
  - right. now apply as_bool_has.
Qed.

Lemma decoded_meta reg ks uid e raw i :
  Permutation reg registry ->
  raw_of_entry (uid, e) = Ok raw -> decode_item C U tz reg ks raw = Ok (Some i) ->
  it_uid i = uid /\ entry_meta e i.
Proof.
  intros Hreg Hr Hd. apply raw_of_entry_inv in Hr.
  destruct Hr as (Hu & m & cr & up & -> & Hcat & Hcr & Ecr & Hup & Eup & Htr & _).
  apply decode_item_meta in Hd. destruct Hd as (Hc & Hu' & Ht & Hcr' & Hup').
  split; [congruence|].
  destruct (cat_from_code_spec reg (r_cat raw) Hreg) as [Hs _]. apply Hs in Hc. destruct Hc as [Hc1 Hc2].
  rewrite <- Hc2 in Hcat.
  exists m, cr, up. split; [reflexivity|]. split; [exact Hcat|]. split; [exact Hc1|].
  split; [exact Hcr|]. split; [congruence|]. split; [exact Hup|]. split; [congruence|].
  rewrite Ht. exact Htr.
Qed.

Lemma decoded_known reg ks uid e raw :
  Permutation reg registry -> raw_of_entry (uid, e) = Ok raw -> known_entry e ->
  decode_item C U tz reg ks raw <> Ok None.
Proof.
  intros Hreg Hr (m & code & -> & Hc & Hin) Hd. apply raw_of_entry_inv in Hr.
  destruct Hr as (_ & m' & cr & up & [= <-] & Hcat & _).
  apply decode_item_none in Hd. destruct Hd as (err & Hd).
  assert (E : code = r_cat raw) by (unfold has_str in *; congruence). subst code.
  apply in_map_iff in Hin. destruct Hin as ([c n] & E & Hin). cbn [fst] in E. subst c.
  destruct (cat_from_code_spec reg (r_cat raw) Hreg) as [Hs _].
  specialize (Hs (Cat (r_cat raw) n)). destruct Hs as [_ Hs]. rewrite Hs in Hd; [discriminate|]. auto.
Qed.

(** ** Malformed entries *)

Lemma raw_of_entry_malformed uid e : malformed_entry e -> raw_of_entry (uid, e) = Panic.
Proof.
  assert (S : forall k m, (forall s, mget k m <> Some (JStr s)) -> as_str (jget k (Some m)) = Panic).
  { intros k m H. unfold jget. destruct (mget k m) as [[]|] eqn:E; try reflexivity. exfalso. now apply (H s). }
  assert (N : forall k m, (forall s, mget k m <> Some (JNum s)) -> as_num (jget k (Some m)) = Panic).
  { intros k m H. unfold jget. destruct (mget k m) as [[]|] eqn:E; try reflexivity. exfalso. now apply (H f). }
  assert (P : forall k m, as_str (jget k (Some m)) = Panic \/ exists s, as_str (jget k (Some m)) = Ok s).
  { intros k m. destruct (jget k (Some m)); cbn; eauto. }
  assert (Q : forall k m, as_num (jget k (Some m)) = Panic \/ exists s, as_num (jget k (Some m)) = Ok s).
  { intros k m. destruct (jget k (Some m)); cbn; eauto. }
  assert (R : forall m, let x := (if jnil (jget (b "trashed") (Some m)) then Ok false
                          else as_bool (jget (b "trashed") (Some m))) in x = Panic \/ exists s, x = Ok s).
  { intros m. destruct (jget (b "trashed") (Some m)); cbn; eauto. }
  intros [H|(m & -> & H)]; unfold raw_of_entry; cbn [fst snd].
  { destruct e; try reflexivity. exfalso. now apply (H m). }
  cbn [as_obj rbind]. cbn zeta in R.
  assert (T : (if jnil (jget (b "trashed") (Some m)) then Ok false
                          else as_bool (jget (b "trashed") (Some m))) = Panic \/
     (absent (b "trashed") m \/ exists x, mget (b "trashed") m = Some (JBool x))).
  { unfold jget, absent. destruct (mget (b "trashed") m) as [[]|] eqn:E; cbn; eauto. }
  unfold gmap in *.
  destruct (Q (b "created") m) as [E|[x1 E]]; unfold gmap in *; rewrite E; cbn [rbind]; [reflexivity|].
  destruct H as [H|H]; [rewrite (N _ _ H) in E; discriminate|]. clear E.
  destruct (Q (b "updated") m) as [E|[x2 E]]; unfold gmap in *; rewrite E; cbn [rbind]; [reflexivity|].
  destruct H as [H|H]; [rewrite (N _ _ H) in E; discriminate|]. clear E.
  destruct (R m) as [E|[x3 E]]; unfold gmap in *; rewrite E; cbn [rbind]; [reflexivity|].
  destruct T as [T|T]; [unfold gmap in *; congruence|]. clear E.
  destruct (P (b "category") m) as [E|[x4 E]]; unfold gmap in *; rewrite E; cbn [rbind]; [reflexivity|].
  destruct H as [H|H]; [rewrite (S _ _ H) in E; discriminate|]. clear E.
  destruct (P (b "d") m) as [E|[x5 E]]; unfold gmap in *; rewrite E; cbn [rbind]; [reflexivity|].
  destruct H as [H|H]; [rewrite (S _ _ H) in E; discriminate|]. clear E.
  destruct (P (b "hmac") m) as [E|[x6 E]]; unfold gmap in *; rewrite E; cbn [rbind]; [reflexivity|].
  destruct H as [H|H]; [rewrite (S _ _ H) in E; discriminate|]. clear E.
  destruct (P (b "k") m) as [E|[x7 E]]; unfold gmap in *; rewrite E; cbn [rbind]; [reflexivity|].
  destruct H as [H|H]; [rewrite (S _ _ H) in E; discriminate|]. clear E.
  destruct (P (b "o") m) as [E|[x8 E]]; unfold gmap in *; rewrite E; cbn [rbind]; [reflexivity|].
  destruct H as [H|H]; [rewrite (S _ _ H) in E; discriminate|]. clear E.
  exfalso. destruct H as [H1 H2]. destruct T as [T|[x T]]; [auto|]. now apply (H2 x).
Qed.

Lemma rmap_panic {A B} (f : A -> res B) l :
  (forall x, In x l -> (exists y, f x = Ok y) \/ f x = Panic) ->
  Exists (fun x => f x = Panic) l -> rmap f l = Panic.
Proof.
  induction l as [|x l IH]; intros H He; [inversion He|]. cbn [rmap].
  destruct (H x) as [(y & E)|E]; [now left| |]; rewrite E; cbn [rbind]; [|reflexivity].
  inversion He as [? ? E2|? ? E2]; subst; [congruence|].
  rewrite IH; [reflexivity| |exact E2]. intros z Hz. apply H. now right.
Qed.

Lemma raw_of_entry_total kv : (exists y, raw_of_entry kv = Ok y) \/ raw_of_entry kv = Panic.
Proof.
  unfold raw_of_entry.
  repeat match goal with
  | |- context [rbind (as_obj ?x) _] => destruct x; cbn [as_obj rbind]; auto
  | |- context [rbind (as_num ?x) _] => destruct x; cbn [as_num rbind]; auto
  | |- context [rbind (as_str ?x) _] => destruct x; cbn [as_str rbind]; auto
  | |- context [rbind (if jnil ?x then _ else _) _] => destruct x; cbn [as_bool jnil rbind]; auto
  end; eauto.
Qed.

Lemma unlock_malformed O D path L bands s password ks :
  oracles_ok O -> vault_dir D path L -> plain_path path -> bands_at D L bands ->
  unlock_keys C (st_profile s) password = Ok (Some ks) ->
  Exists (fun kv => malformed_entry (snd kv)) (entries_of bands) ->
  unlock C U tz O D path password s = Panic.
Proof.
  intros HO Hv Hp Hb Hk He. unfold unlock. rewrite Hk. cbn [rbind].
  unfold decode_items. rewrite (load_items_bands O D path L bands HO Hv Hp Hb).
  rewrite rmap_panic; [reflexivity| |].
  - intros kv _. apply raw_of_entry_total.
  - apply Exists_exists in He. destruct He as ([u e] & Hin & Hm). apply Exists_exists.
    exists (u, e). split; [|now apply raw_of_entry_malformed].
    apply (Permutation_in _ (Permutation_sym (iter_perm O HO _))). exact Hin.
Qed.

End Opened.
