(** What the tables of the IERS Conventions say and how they are laid out,
    independently of the model. *)
From Coq Require Import String Ascii List Reals ZArith.
Import ListNotations.
Open Scope R_scope.

(** ** Text *)
Definition space (a : ascii) : Prop :=
  In (nat_of_ascii a) [9; 10; 11; 12; 13; 32]%nat.
Fixpoint every (P : ascii -> Prop) (s : string) : Prop :=
  match s with EmptyString => True | String a r => P a /\ every P r end.
Definition spaces (s : string) : Prop := every space s.
Definition word (s : string) : Prop := s <> EmptyString /\ every (fun a => ~ space a) s.
(** a line made of these words with spaces between them and around them *)
Inductive laid : string -> list string -> Prop :=
| laid_end : forall s, spaces s -> laid s []
| laid_last : forall s w, spaces s -> word w -> laid (s ++ w) [w]
| laid_word : forall s w b r ws, spaces s -> word w -> space b -> laid r ws ->
    laid (s ++ w ++ String b r) (w :: ws).

(** decimal notation: the last digit counts units *)
Inductive spells : string -> Z -> Prop :=
| spells_digit : forall d, (d < 10)%nat -> spells (String (ascii_of_nat (48 + d)) EmptyString) (Z.of_nat d)
| spells_more : forall s n d, spells s n -> (d < 10)%nat ->
    spells (s ++ String (ascii_of_nat (48 + d)) EmptyString) (10 * n + Z.of_nat d).
Inductive whole : string -> Z -> Prop :=
| whole_plain : forall s n, spells s n -> whole s n
| whole_plus : forall s n, spells s n -> whole (String "+" s) n
| whole_minus : forall s n, spells s n -> whole (String "-" s) (- n).
(** digits with a decimal point: 12.34 is 1234 / 10^2 *)
Inductive pointed : string -> R -> Prop :=
| pointed_point : forall i f n, spells (i ++ f) n ->
    pointed (i ++ String "." f) (IZR n / 10 ^ String.length f)
| pointed_none : forall s n, spells s n -> pointed s (IZR n).
Inductive real : string -> R -> Prop :=
| real_plain : forall s x, pointed s x -> real s x
| real_plus : forall s x, pointed s x -> real (String "+" s) x
| real_minus : forall s x, pointed s x -> real (String "-" s) (- x).

(** ** A term of the series: its number, the coefficients of sine and cosine,
    the multipliers of the fourteen fundamental arguments *)
Record row := Row { row_number : Z; row_sine : R; row_cosine : R; row_multipliers : list Z }.
(** the line of a table with this term *)
Definition lists (line : string) (r : row) : Prop :=
  exists i s c ns, laid line (i :: s :: c :: ns)
    /\ whole i (row_number r) /\ real s (row_sine r) /\ real c (row_cosine r)
    /\ Forall2 whole ns (row_multipliers r) /\ List.length ns = 14%nat.

(** y is a binary number of 24 bits as near to x as single precision allows *)
Definition nearly (x y : R) : Prop :=
  Rabs (y - x) <= Rabs x / 2 ^ 24
  /\ exists m e : Z, (Z.abs m <= 2 ^ 24)%Z /\ y = IZR m * powerRZ 2 e.

(** the lines of a file from this place on list these terms, one to a line *)
Definition listed (lines : list string) (start : nat) (rs : list row) : Prop :=
  forall k r, nth_error rs k = Some r ->
    exists line, nth_error lines (start + k) = Some line /\ lists line r.

(** ** Fundamental arguments in radians, T in centuries since
    2000-01-01T12:00:00 (IERS Conventions 2010, equations 5.43 and 5.44) *)
Definition arcsec (x : R) : R := x * PI / 648000.
Definition fundamental (T : R) : list R :=
  [ arcsec (485868.249036 + 1717915923.2178 * T + 31.8792 * T ^ 2 + 0.051635 * T ^ 3 - 0.00024470 * T ^ 4);
    arcsec (1287104.79305 + 129596581.0481 * T - 0.5532 * T ^ 2 + 0.000136 * T ^ 3 - 0.00001149 * T ^ 4);
    arcsec (335779.526232 + 1739527262.8478 * T - 12.7512 * T ^ 2 - 0.001037 * T ^ 3 + 0.00000417 * T ^ 4);
    arcsec (1072260.70369 + 1602961601.2090 * T - 6.3706 * T ^ 2 + 0.006593 * T ^ 3 - 0.00003169 * T ^ 4);
    arcsec (450160.398036 - 6962890.5431 * T + 7.4722 * T ^ 2 + 0.007702 * T ^ 3 - 0.00005939 * T ^ 4);
    4.402608842 + 2608.7903141574 * T;
    3.176146697 + 1021.3285546211 * T;
    1.753470314 + 628.3075849991 * T;
    6.203480913 + 334.0612426700 * T;
    0.599546497 + 52.9690962641 * T;
    0.874016757 + 21.3299104960 * T;
    5.481293872 + 7.4781598567 * T;
    5.311886287 + 3.8133035638 * T;
    0.02438175 * T + 0.00000538691 * T ^ 2 ].

(** ARG of a term *)
Fixpoint combination (ns : list Z) (fs : list R) : R :=
  match ns, fs with n :: ns, f :: fs => IZR n * f + combination ns fs | _, _ => 0 end.
Definition term_value (fs : list R) (r : row) : R :=
  row_sine r * sin (combination (row_multipliers r) fs) + row_cosine r * cos (combination (row_multipliers r) fs).
Fixpoint total (f : row -> R) (rs : list row) : R := match rs with [] => 0 | r :: rs => f r + total f rs end.
(** Sum_i [A_i sin(ARG) + A"_i cos(ARG)] + T Sum_i [A'_i sin(ARG) + A"'_i cos(ARG)] *)
Definition conventions (r0 r1 : list row) (T : R) : R :=
  total (term_value (fundamental T)) r0 + T * total (term_value (fundamental T)) r1.

(** the term has no planetary argument *)
Definition lunisolar (r : row) : Prop := Forall (eq 0%Z) (skipn 5 (row_multipliers r)).
(** the term with its planetary multipliers forgotten *)
Definition without_planets (r : row) : row :=
  Row (row_number r) (row_sine r) (row_cosine r) (firstn 5 (row_multipliers r)).

(** mean obliquity of the ecliptic (equation 5.40) *)
Definition obliquity_of_date (T : R) : R :=
  arcsec (84381.406 - 46.836769 * T - 0.0001831 * T ^ 2 + 0.00200340 * T ^ 3
          - 0.000000576 * T ^ 4 - 0.0000000434 * T ^ 5).

(** The same number of turns but for whole turns *)
Definition same_turn (x y : R) : Prop := exists k : Z, x = y + IZR k.
