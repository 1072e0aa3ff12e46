(** path/filepath on Unix (standard library, not part of /repo): Clean, Join,
    Split, Match. *)
From Verif Require Import Base Utf8.

Definition slash : ascii := "/"%char.
Definition is_slash (c : ascii) : bool := Ascii.eqb c slash.

(** The elements between slashes; always at least one. *)
Fixpoint split_slash (s : bytes) : list bytes :=
  match s with
  | [] => [[]]
  | c :: s' =>
      if is_slash c then [] :: split_slash s'
      else
        match split_slash s' with
        | [] => [[c]]
        | e :: es => (c :: e) :: es
        end
  end.

Fixpoint join_slash (l : list bytes) : bytes :=
  match l with
  | [] => []
  | [x] => x
  | x :: l' => x ++ slash :: join_slash l'
  end.

Definition dot : bytes := b ".".
Definition dotdot : bytes := b "..".

Definition rooted (s : bytes) : bool :=
  match s with c :: _ => is_slash c | [] => false end.

(** filepath.Clean on the elements; [acc] is the reversed result so far.  At the
    root ".." is dropped; in a relative path leading ".." are kept. *)
Fixpoint clean_elems (root : bool) (acc : list bytes) (l : list bytes) : list bytes :=
  match l with
  | [] => rev acc
  | e :: l' =>
      if bytes_eqb e [] || bytes_eqb e dot then clean_elems root acc l'
      else if bytes_eqb e dotdot then
        match acc with
        | a :: acc' =>
            if bytes_eqb a dotdot then clean_elems root (e :: acc) l'
            else clean_elems root acc' l'
        | [] => if root then clean_elems root [] l' else clean_elems root [e] l'
        end
      else clean_elems root (e :: acc) l'
  end.

(** filepath.Clean *)
Definition clean (s : bytes) : bytes :=
  let es := clean_elems (rooted s) [] (split_slash s) in
  if rooted s then slash :: join_slash es
  else match es with [] => dot | _ => join_slash es end.

(** filepath.Join *)
Fixpoint join_path (l : list bytes) : bytes :=
  match l with
  | [] => []
  | e :: l' => if bytes_eqb e [] then join_path l' else clean (join_slash l)
  end.

(** filepath.Split: directory including the final slash, and file name. *)
Fixpoint split_path (s : bytes) : bytes * bytes :=
  match s with
  | [] => ([], [])
  | c :: s' =>
      let (d, f) := split_path s' in
      match d with
      | [] => if is_slash c then ([c], f) else ([], c :: f)
      | _ => (c :: d, f)
      end
  end.

(** hasMeta *)
Definition is_meta (c : ascii) : bool :=
  Ascii.eqb c "*" || Ascii.eqb c "?" || Ascii.eqb c "[" || Ascii.eqb c "\".
Definition has_meta (s : bytes) : bool := existsb is_meta s.

(** ** filepath.Match *)

Inductive gtok : Type :=
| GStar
| GAny
| GLit (c : ascii)
| GClass (neg : bool) (ranges : list (rune * rune)).

(** One rune and the rest. *)
Definition dec1 (s : bytes) : option (rune * bytes) :=
  match s with
  | [] => None
  | c0 :: s1 =>
      if (vb c0 <? 128)%N then Some (vb c0, s1)
      else
        match s1 with
        | [] => Some (rune_error, s1)
        | c1 :: s2 =>
            if ok2 c0 c1 then Some (rune2 c0 c1, s2)
            else
              match s2 with
              | [] => Some (rune_error, s1)
              | c2 :: s3 =>
                  if ok3 c0 c1 c2 then Some (rune3 c0 c1 c2, s3)
                  else
                    match s3 with
                    | [] => Some (rune_error, s1)
                    | c3 :: s4 =>
                        if ok4 c0 c1 c2 c3 then Some (rune4 c0 c1 c2 c3, s4)
                        else Some (rune_error, s1)
                    end
              end
        end
  end.

(** getEsc: a possibly escaped character of a class. *)
Definition get_esc (s : bytes) : option (rune * bytes) :=
  match s with
  | [] => None
  | c :: s1 =>
      if Ascii.eqb c "-" || Ascii.eqb c "]" then None
      else
        let s2 := if Ascii.eqb c "\" then s1 else s in
        match dec1 s2 with
        | None => None
        | Some (_, []) => None
        | Some (r, s3) => Some (r, s3)
        end
  end.

(** The ranges of a class up to its closing bracket; at least one is needed. *)
Fixpoint class_ranges (fuel : nat) (acc : list (rune * rune)) (s : bytes)
  : option (list (rune * rune) * bytes) :=
  match fuel with
  | 0 => None
  | S f =>
      match s, acc with
      | c :: s1, _ :: _ =>
          if Ascii.eqb c "]" then Some (rev acc, s1) else
          match get_esc s with
          | None => None
          | Some (lo, c2 :: s2) =>
              if Ascii.eqb c2 "-" then
                match get_esc s2 with
                | None => None
                | Some (hi, s3) => class_ranges f ((lo, hi) :: acc) s3
                end
              else class_ranges f ((lo, lo) :: acc) (c2 :: s2)
          | Some (lo, []) => None
          end
      | _, _ =>
          match get_esc s with
          | None => None
          | Some (lo, c2 :: s2) =>
              if Ascii.eqb c2 "-" then
                match get_esc s2 with
                | None => None
                | Some (hi, s3) => class_ranges f ((lo, hi) :: acc) s3
                end
              else class_ranges f ((lo, lo) :: acc) (c2 :: s2)
          | Some (lo, []) => None
          end
      end
  end.

(** The tokens of a pattern, None if it is malformed (ErrBadPattern). *)
Fixpoint glob_tokens (fuel : nat) (s : bytes) : option (list gtok) :=
  match fuel with
  | 0 => None
  | S f =>
      match s with
      | [] => Some []
      | c :: s1 =>
          if Ascii.eqb c "*" then option_map (cons GStar) (glob_tokens f s1)
          else if Ascii.eqb c "?" then option_map (cons GAny) (glob_tokens f s1)
          else if Ascii.eqb c "\" then
            match s1 with
            | [] => None
            | e :: s2 => option_map (cons (GLit e)) (glob_tokens f s2)
            end
          else if Ascii.eqb c "[" then
            let (neg, s2) :=
              match s1 with
              | e :: s2 => if Ascii.eqb e "^" then (true, s2) else (false, s1)
              | [] => (false, s1)
              end in
            match class_ranges (S (length s2)) [] s2 with
            | Some (rs, s3) => option_map (cons (GClass neg rs)) (glob_tokens f s3)
            | None => None
            end
          else option_map (cons (GLit c)) (glob_tokens f s1)
      end
  end.

Fixpoint match_toks (ts : list gtok) (s : bytes) : bool :=
  match ts with
  | [] => match s with [] => true | _ => false end
  | GStar :: ts' =>
      (fix star (s : bytes) : bool :=
         match_toks ts' s ||
         match s with
         | c :: s' => negb (is_slash c) && star s'
         | [] => false
         end) s
  | GAny :: ts' =>
      match dec1 s with
      | Some (r, s') => negb (r =? 47)%N && match_toks ts' s'
      | None => false
      end
  | GLit c :: ts' =>
      match s with
      | d :: s' => Ascii.eqb c d && match_toks ts' s'
      | [] => false
      end
  | GClass neg rs :: ts' =>
      match dec1 s with
      | Some (r, s') =>
          xorb neg (existsb (fun p => in_range (fst p) (snd p) r) rs) && match_toks ts' s'
      | None => false
      end
  end.

(** filepath.Match; [None] is ErrBadPattern.  (A pattern is always checked as a
    whole, as since Go 1.16.) *)
Definition glob_match (pattern name : bytes) : option bool :=
  option_map (fun ts => match_toks ts name) (glob_tokens (S (length pattern)) pattern).
