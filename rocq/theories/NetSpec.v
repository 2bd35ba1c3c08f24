(** Orders of names and calendar dates, for the functions on remote hosts. *)
From Coq Require Import String Ascii List ZArith.
Import ListNotations.
Open Scope string_scope.

(** [no_later a b]: [a] comes before [b] in the order of characters, or is [b] *)
Inductive no_later : string -> string -> Prop :=
| nl_end b : no_later "" b
| nl_lower c d a b : (nat_of_ascii c < nat_of_ascii d)%nat -> no_later (String c a) (String d b)
| nl_same c a b : no_later a b -> no_later (String c a) (String c b).

(** every name comes no later than all that follow *)
Fixpoint in_order {M} (l : list (string * M)) : Prop :=
  match l with
  | [] => True
  | x :: l => (forall y, In y l -> no_later (fst x) (fst y)) /\ in_order l
  end.

(** the rows of one name *)
Definition of_name {M} (n : string) (l : list (string * M)) : list (string * M) :=
  filter (fun x => if string_dec (fst x) n then true else false) l.

(** the rows asked for *)
Definition chosen {M} (pattern : option (string -> bool)) (l : list (string * M))
  : list (string * M) :=
  match pattern with None => l | Some search => filter (fun x => search (fst x)) l end.

(** * the Gregorian calendar *)
Definition leap_year (y : Z) : Prop :=
  Z.divide 4 y /\ (~ Z.divide 100 y \/ Z.divide 400 y).
Inductive month_length (y : Z) : Z -> Z -> Prop :=
| long m : In m [1; 3; 5; 7; 8; 10; 12]%Z -> month_length y m 31
| short m : In m [4; 6; 9; 11]%Z -> month_length y m 30
| feb_leap : leap_year y -> month_length y 2 29
| feb : ~ leap_year y -> month_length y 2 28.
Inductive day_after : Z * Z * Z -> Z * Z * Z -> Prop :=
| same_month y m d n : month_length y m n -> (1 <= d < n)%Z -> day_after (y, m, d) (y, m, d + 1)%Z
| next_month y m n : month_length y m n -> (m < 12)%Z -> day_after (y, m, n) (y, m + 1, 1)%Z
| next_year y : day_after (y, 12, 31)%Z (y + 1, 1, 1)%Z.
