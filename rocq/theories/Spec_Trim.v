(** White space, and a text without the white space around it.  Independent of the program and of the
    functions of Go's package strings. *)
From Verif Require Import Base Utf8.

(** The characters with the Unicode property White_Space. *)
Definition white_points : list N :=
  [9; 10; 11; 12; 13; 32; 133; 160; 5760; 8192; 8193; 8194; 8195; 8196; 8197; 8198; 8199; 8200; 8201; 8202;
   8232; 8233; 8239; 8287; 12288]%N.
Definition white (r : N) : Prop := In r white_points.

(** [t] is [s] without the white space at both ends: [s] is white space, [t], white space, and [t] neither
    starts nor ends with a white-space character.  Bytes that are not UTF-8 are not white space. *)
Definition trimmed (s t : bytes) : Prop := exists before after,
  Forall white before /\ Forall white after /\ s = utf8_encode before ++ t ++ utf8_encode after /\
  (forall r x, white r -> t <> enc_rune r ++ x) /\ (forall r x, white r -> t <> x ++ enc_rune r).

(** A white-space character stands at the start of [v]. *)
Definition blank_at (v : bytes) : Prop := exists r x, white r /\ v = enc_rune r ++ x.

(** [w] is the first word of [s]: white space, the word, then the end or white space. *)
Definition first_word (s w : bytes) : Prop :=
  exists rs post, s = utf8_encode rs ++ w ++ post /\ Forall white rs /\ w <> [] /\
    (post = [] \/ blank_at post) /\ forall i, i < length w -> ~ blank_at (skipn i (w ++ post)).
