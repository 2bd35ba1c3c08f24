(** Vocabulary of the statements about columns of text (C74), independent of the
    functions of the model. *)
From Coq Require Import List Bool Arith String Ascii.
From Verif Require Import CsvModel.
Import ListNotations.
Local Open Scope char_scope.

(** the character is not in the text *)
Definition clear (c : ascii) (t : text) : Prop := ~ In c t.
(** lines, each with its end *)
Inductive lines_of : text -> list text -> Prop :=
  | No_lines : lines_of [] []
  | A_line l t ls : clear newline l -> lines_of t ls -> lines_of (l ++ newline :: t) (l :: ls).
(** fields with one character between them *)
Inductive delimited (c : ascii) : text -> list text -> Prop :=
  | One_field t : clear c t -> delimited c t [t]
  | More_fields t line l : clear c t -> delimited c line l -> delimited c (t ++ c :: line) (t :: l).

(** numerals: a sign, digits, a point and digits, an exponent *)
Definition is_digit (a : ascii) : Prop := (48 <= nat_of_ascii a <= 57)%nat.
Inductive signed : text -> Prop := No_sign : signed [] | A_sign a : a = "-" \/ a = "+" -> signed [a].
Inductive decimal_text : text -> Prop :=
  | Whole d : d <> [] -> Forall is_digit d -> decimal_text d
  | Pointed d : d <> [] -> Forall is_digit d -> decimal_text (d ++ ["."])
  | Fraction d f : Forall is_digit d -> f <> [] -> Forall is_digit f -> decimal_text (d ++ "." :: f).
Inductive power_text : text -> Prop :=
  | No_power : power_text []
  | A_power e s d : e = "E" \/ e = "e" \/ e = "D" -> signed s -> d <> [] -> Forall is_digit d -> power_text (e :: s ++ d).
Inductive numeral : text -> Prop := Numeral s m p : signed s -> decimal_text m -> power_text p -> numeral (s ++ m ++ p).
(** what may follow a numeral *)
Definition filler (a : ascii) : Prop := ~ is_digit a /\ ~ In a ["-"; "+"; "."; "E"; "e"; "D"].
(** what may stand between numerals: no digits; signs and points if they are followed by
    something that cannot continue a number *)
Inductive gap : text -> Prop :=
  | Gap_none : gap []
  | Gap_other a s : ~ is_digit a -> ~ In a ["-"; "+"; "."] -> gap s -> gap (a :: s)
  | Gap_mark m a s : In m ["-"; "+"; "."] -> filler a -> gap s -> gap (m :: a :: s).
Inductive spaced : text -> list text -> Prop :=
  | Blank s : gap s -> spaced s []
  | Final s f : gap s -> numeral f -> spaced (s ++ f) [f]
  | Next s f c line l : gap s -> numeral f -> filler c -> spaced line l -> spaced (s ++ f ++ c :: line) (f :: l).
Inductive parted : option ascii -> text -> list text -> Prop :=
  | By_delimiter c line l : delimited c line l -> parted (Some c) line l
  | By_number line l : spaced line l -> parted None line l.

(** fortran exponents *)
Definition with_E (t : text) : text := map (fun a => if ascii_dec a "D" then "E" else a) t.
(** the number in a column *)
Definition reading {A} (num date : text -> option A) (dates : bool) (c : string) (t : text) : option A :=
  if string_dec c "time" then (if dates then date (with_E t) else num (with_E t)) else num (with_E t).
(** the columns of a table are those of the fields *)
Definition tabulated {A} (num date : text -> option A) (dates : bool) (columns : list string) (rows : list (list text)) (cols : list (list A)) : Prop :=
  List.length cols = List.length columns /\
  forall k c, nth_error columns k = Some c -> exists col, nth_error cols k = Some col /\ List.length col = List.length rows /\
    forall i row t, nth_error rows i = Some row -> nth_error row k = Some t -> exists a, nth_error col i = Some a /\ reading num date dates c t = Some a.
(** all fields can be read *)
Definition readable {A} (num date : text -> option A) (dates : bool) (columns : list string) (row : list text) : Prop :=
  (List.length columns <= List.length row)%nat /\
  forall k c t, nth_error columns k = Some c -> nth_error row k = Some t -> reading num date dates c t <> None.

(** the words which end a header *)
Definition closing : text := list_ascii_of_string "# End of YAML header".
Definition closes (line : text) : Prop := exists a b, line = (a ++ closing ++ b)%list.
(** a text which is read back as written: fields separated by [c] and read with [d] *)
Definition carries (d : option ascii) (c : ascii) (t : text) : Prop :=
  clear newline t /\ match d with Some c' => c' = c /\ clear c t | None => filler c /\ numeral t end.
(** a text which can be written in a header *)
Definition plain (t : text) : Prop := clear newline t /\ clear "#" t.
(** values which are read back as written *)
Definition kept {A} (num date : text -> option A) (show : A -> text) (d : option ascii) (c : ascii) (dates : bool) (columns : list string) (vals : list (list A)) : Prop :=
  forall k name l a, nth_error columns k = Some name -> nth_error vals k = Some l -> In a l -> reading num date dates name (show a) = Some a /\ carries d c (show a).
