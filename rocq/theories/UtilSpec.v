(** What the small utilities are for. *)
From Coq Require Import String Ascii List ZArith.
Import ListNotations.
Open Scope string_scope.

(** ** Paths: the parts joined with slashes *)
Fixpoint joined (first : string) (rest : list string) : string :=
  match rest with
  | [] => first
  | p :: rest' => joined (first ++ "/" ++ p) rest'
  end.
(** a part of a path: not empty and without slashes *)
Definition part (p : string) : Prop := p <> "" /\ ~ In "/"%char (list_ascii_of_string p).

(** ** Roman numerals *)
(** the value of a sequence of letters: a letter counts against the next one
    if that is larger, otherwise for itself *)
Fixpoint roman_value (l : list Z) : Z :=
  match l with
  | [] => 0
  | x :: r => (match r with y :: _ => if (x <? y)%Z then - x else x | [] => x end + roman_value r)%Z
  end.
(** the numeral of a decimal digit written with the letters for one, five and ten *)
Definition digit (one five ten : string) (d : nat) : string :=
  match d with
  | 0 => "" | 1 => one | 2 => one ++ one | 3 => one ++ one ++ one | 4 => one ++ five
  | 5 => five | 6 => five ++ one | 7 => five ++ one ++ one | 8 => five ++ one ++ one ++ one
  | _ => one ++ ten
  end.
Fixpoint times (k : nat) (s : string) : string :=
  match k with O => "" | S k' => s ++ times k' s end.
(** the canonical numeral, thousands written out *)
Definition numeral (n : nat) : string :=
  times (n / 1000) "m" ++
  digit "c" "d" "m" ((n mod 1000) / 100) ++ digit "x" "l" "c" ((n mod 100) / 10) ++ digit "i" "v" "x" (n mod 10).
