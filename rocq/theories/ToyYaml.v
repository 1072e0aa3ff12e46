(** A format with the properties assumed of YAML, for the examples. *)
From Verif Require Import Base Utf8 GoStrings Path Fs Domain World Config.

Definition enc_str (s : bytes) : bytes := flat_map (fun c => ["1"%char; c]) s ++ ["0"%char].

Fixpoint dec_str (s : bytes) : option (bytes * bytes) :=
  match s with
  | c :: s1 =>
      if Ascii.eqb c "0" then Some ([], s1)
      else match s1 with
           | d :: s2 => option_map (fun p => (d :: fst p, snd p)) (dec_str s2)
           | [] => None
           end
  | [] => None
  end.

Lemma dec_enc_str s rest : dec_str (enc_str s ++ rest) = Some (s, rest).
Proof.
  unfold enc_str. induction s as [|c s IH]; [reflexivity|]. cbn [flat_map app dec_str].
  change (Ascii.eqb "1" "0") with false. cbn iota.
  rewrite IH. reflexivity.
Qed.

Fixpoint bits (p : positive) : bytes :=
  match p with xH => [] | xO p' => "0"%char :: bits p' | xI p' => "1"%char :: bits p' end.
Fixpoint unbits (s : bytes) : positive :=
  match s with
  | [] => xH
  | c :: s' => if Ascii.eqb c "0" then xO (unbits s') else xI (unbits s')
  end.
Lemma unbits_bits p : unbits (bits p) = p.
Proof. induction p as [p IH|p IH|]; cbn [bits unbits]; [change (Ascii.eqb "1" "0") with false| |reflexivity]; cbn; now rewrite IH. Qed.

Definition enc_z (z : Z) : bytes :=
  match z with Z0 => [] | Zpos p => "+"%char :: bits p | Zneg p => "-"%char :: bits p end.
Definition dec_z (s : bytes) : Z :=
  match s with
  | [] => Z0
  | c :: s' => if Ascii.eqb c "+" then Zpos (unbits s') else Zneg (unbits s')
  end.
Lemma dec_enc_z z : dec_z (enc_z z) = z.
Proof. destruct z; cbn; now rewrite ?unbits_bits. Qed.

Definition enc_val (v : yval) : bytes :=
  match v with
  | YNull => b "n"
  | YStr s => "s"%char :: enc_str s
  | YInt z => "i"%char :: enc_str (enc_z z)
  | YBool true => b "t"
  | YBool false => b "f"
  | YOther x y => "o"%char :: enc_str x ++ enc_str y
  end.

Definition dec_val (s : bytes) : option (yval * bytes) :=
  match s with
  | [] => None
  | c :: s' =>
      if Ascii.eqb c "n" then Some (YNull, s')
      else if Ascii.eqb c "s" then option_map (fun p => (YStr (fst p), snd p)) (dec_str s')
      else if Ascii.eqb c "i" then option_map (fun p => (YInt (dec_z (fst p)), snd p)) (dec_str s')
      else if Ascii.eqb c "t" then Some (YBool true, s')
      else if Ascii.eqb c "f" then Some (YBool false, s')
      else if Ascii.eqb c "o" then
        match dec_str s' with
        | Some (x, s2) => option_map (fun p => (YOther x (fst p), snd p)) (dec_str s2)
        | None => None
        end
      else None
  end.

Lemma dec_enc_val v rest : dec_val (enc_val v ++ rest) = Some (v, rest).
Proof.
  destruct v as [|s|z|[|]|x y]; try reflexivity; unfold enc_val; cbn -[enc_str dec_str];
    rewrite <- ?app_assoc; rewrite ?dec_enc_str; cbn -[enc_str dec_str]; rewrite ?dec_enc_str, ?dec_enc_z; reflexivity.
Qed.

Definition enc_entry (kv : bytes * yval) : bytes := enc_str (fst kv) ++ enc_val (snd kv).

Fixpoint dec_entries (fuel : nat) (s : bytes) : option (gmap yval) :=
  match s, fuel with
  | [], _ => Some []
  | _, 0 => None
  | _, S f =>
      match dec_str s with
      | Some (k, s1) =>
          match dec_val s1 with
          | Some (v, s2) => option_map (cons (k, v)) (dec_entries f s2)
          | None => None
          end
      | None => None
      end
  end.

Lemma enc_entry_len kv : 1 <= length (enc_entry kv).
Proof. unfold enc_entry, enc_str. rewrite !app_length. simpl. lia. Qed.

Lemma dec_enc_entries m : forall fuel, length (flat_map enc_entry m) <= fuel ->
  dec_entries fuel (flat_map enc_entry m) = Some m.
Proof.
  induction m as [|[k v] m IH]; intros fuel Hf; [destruct fuel; reflexivity|].
  cbn [flat_map] in *. rewrite app_length in Hf. assert (H := enc_entry_len (k, v)).
  destruct fuel as [|fuel]; [lia|].
  destruct (enc_entry (k, v) ++ flat_map enc_entry m) as [|c s] eqn:E.
  { apply app_eq_nil in E. destruct E as [E _]. rewrite E in H. simpl in H. lia. }
  cbn [dec_entries]. rewrite <- E. unfold enc_entry. cbn [fst snd]. rewrite <- app_assoc, dec_enc_str, dec_enc_val.
  rewrite IH by lia. reflexivity.
Qed.

Fixpoint nodup_keys (l : list bytes) : bool :=
  match l with [] => true | k :: l' => negb (existsb (bytes_eqb k) l') && nodup_keys l' end.

Lemma nodup_keys_ok l : nodup_keys l = true <-> NoDup l.
Proof.
  induction l as [|k l IH]; cbn [nodup_keys]; [split; constructor|].
  rewrite andb_true_iff, negb_true_iff, IH. split.
  - intros [H1 H2]. constructor; [|exact H2]. intros Hin.
    assert (existsb (bytes_eqb k) l = true); [|congruence].
    apply existsb_exists. exists k. split; [exact Hin|apply bytes_eqb_refl].
  - intros H. inversion H as [|? ? Hn Hl]; subst. split; [|exact Hl].
    destruct (existsb (bytes_eqb k) l) eqn:E; [|reflexivity]. apply existsb_exists in E.
    destruct E as (x & Hx & Ex). apply bytes_eqb_eq in Ex. congruence.
Qed.

Definition toy_yaml : yaml := {|
  y_print m := Some ("M"%char :: flat_map enc_entry m);
  y_parse s :=
    match s with
    | [] => Some None
    | c :: s' =>
        if Ascii.eqb c "M" then
          match dec_entries (length s') s' with
          | Some m => if nodup_keys (map fst m) then Some (Some m) else None
          | None => None
          end
        else None
    end;
|}.

Lemma toy_yaml_ok : yaml_ok toy_yaml.
Proof.
  constructor.
  - intros m. eexists. reflexivity.
  - intros m s Hn _ [= <-]. exists m. split; [|auto]. cbn [toy_yaml y_parse].
    change (Ascii.eqb "M" "M") with true. cbn iota. rewrite dec_enc_entries by apply le_n.
    apply nodup_keys_ok in Hn. now rewrite Hn.
  - intros s m. cbn [toy_yaml y_parse]. destruct s as [|c s]; [discriminate|].
    destruct (Ascii.eqb c "M"); [|discriminate]. destruct (dec_entries (length s) s) as [m'|]; [|discriminate].
    destruct (nodup_keys (map fst m')) eqn:E; [|discriminate]. intros [= <-]. now apply nodup_keys_ok.
  - reflexivity.
Qed.
