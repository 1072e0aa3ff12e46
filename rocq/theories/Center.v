(** go-pretty v6.2.1, text.AlignCenter.Apply, as the menu uses it (1passwidget.go:217, 231, 242). *)
From Verif Require Import Base GoStrings.

(** text/align.go, trimString and Apply: blanks around the text are dropped, a text that is too long stays as it is.
    Simplified to texts of one byte per character and without escape sequences, as the labels of the menu are. *)
Definition blanks (n : nat) : bytes := repeat " "%char n.
Fixpoint trim_left_blanks (t : bytes) : bytes :=
  match t with
  | c :: t' => if Ascii.eqb c " " then trim_left_blanks t' else t
  | [] => []
  end.
Definition trim_blanks (t : bytes) : bytes := rev (trim_left_blanks (rev (trim_left_blanks t))).
Definition align_center (t : bytes) (width : Z) : bytes :=
  let t := trim_blanks t in
  let n := Z.of_nat (length t) in
  if (n <? width)%Z then
    let right := ((width - n) / 2)%Z in
    blanks (Z.to_nat (width - n - right)) ++ t ++ blanks (Z.to_nat right)
  else t.
