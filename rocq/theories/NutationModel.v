(** Model of pyTMD/astro.py:644-663 gast, 706-761 _eqeq_complement, 788-833
    _nutation_angles and 946-1029 _parse_table_5_2e, _parse_table_5_3a,
    _parse_table_5_3b.
    Simplifications: one time at once; what the external timescale package
    gives for a time (terrestrial time in Julian days, centuries, sidereal
    time, the factor from table units to radians) is a record of numbers;
    numbers in the tables have no exponent part and no underscores, python's
    other spellings of numbers are taken to be malformed; integers do not
    overflow 32 bits and numbers are within the normal range of single
    precision. *)
From Coq Require Import String Ascii List Reals ZArith Bool.
From Verif Require Import PyBase RBase MathModel AstroModel.
Import ListNotations.
Open Scope R_scope.

(** str.split(): maximal runs of characters that are not blank *)
Definition blank (a : ascii) : bool :=
  let n := nat_of_ascii a in ((n =? 32) || ((9 <=? n) && (n <=? 13)))%nat.
Fixpoint words (s : string) : list string :=
  match s with
  | EmptyString => []
  | String a r =>
      if blank a then words r
      else match r with
           | EmptyString => [String a EmptyString]
           | String b _ =>
               if blank b then String a EmptyString :: words r
               else match words r with w :: ws => String a w :: ws | [] => [String a EmptyString] end
           end
  end.

(** int(...) and float(...) of a word, called by numpy when a tuple of words
    is made into a structured array (astro.py:968, 974 and below) *)
Definition digit (a : ascii) : option Z :=
  let n := nat_of_ascii a in
  if ((48 <=? n) && (n <=? 57))%nat then Some (Z.of_nat n - 48)%Z else None.
Fixpoint digits (s : string) (acc : Z) : option Z :=
  match s with
  | EmptyString => Some acc
  | String a r => match digit a with Some d => digits r (10 * acc + d)%Z | None => None end
  end.
Definition natural (s : string) : option Z :=
  match s with EmptyString => None | _ => digits s 0 end.
Definition signed {A} (neg : A -> A) (f : string -> option A) (s : string) : option A :=
  match s with
  | String "-" r => option_map neg (f r)
  | String "+" r => f r
  | _ => f s
  end.
Definition integer (s : string) : option Z := signed Z.opp natural s.
Fixpoint cut_point (s : string) : string * string :=
  match s with
  | EmptyString => (EmptyString, EmptyString)
  | String "." r => (EmptyString, r)
  | String a r => let (i, f) := cut_point r in (String a i, f)
  end.
(** a decimal number n / 10^k *)
Definition unsigned_decimal (s : string) : option (Z * nat) :=
  let (i, f) := cut_point s in
  option_map (fun n => (n, String.length f)) (natural (i ++ f)).
Definition decimal (s : string) : option (Z * nat) :=
  signed (fun p => ((- fst p)%Z, snd p)) unsigned_decimal s.

(** Rounding of a / b (both positive) to a binary number m * 2^e with 24 bits,
    halves to even: the format 'f' of the columns of coefficients (astro.py:961) *)
Definition half_even (a b : Z) : Z :=
  let q := (a / b)%Z in let r := (a mod b)%Z in
  match (2 * r ?= b)%Z with Lt => q | Gt => (q + 1)%Z | Eq => if Z.even q then q else (q + 1)%Z end.
Definition single_positive (a b : Z) : Z * Z :=
  let e0 := (Z.log2 a - Z.log2 b)%Z in
  let below := if (0 <=? e0)%Z then (a <? b * 2 ^ e0)%Z else (a * 2 ^ (- e0) <? b)%Z in
  let e := if below then (e0 - 24)%Z else (e0 - 23)%Z in
  (if (0 <=? e)%Z then half_even a (b * 2 ^ e) else half_even (a * 2 ^ (- e)) b, e).
Definition single (a b : Z) : Z * Z :=
  match a with
  | Z0 => (0, 0)%Z
  | Zpos _ => single_positive a b
  | Zneg p => let (m, e) := single_positive (Zpos p) b in ((- m)%Z, e)
  end.
Definition single_value (x : Z * Z) : R := IZR (fst x) * powerRZ 2 (snd x).

(** One row of the structured arrays (astro.py:958-962): the number of the
    term, the coefficients of sine and cosine, and the multipliers of l, lp, F,
    D, Om and of the nine planetary arguments *)
Record term := Term { number : Z; sine : Z * Z; cosine : Z * Z; multipliers : list Z }.
Definition zero_term : term := Term 0 (0, 0)%Z (0, 0)%Z (repeat 0%Z 14).

Definition opt_res {A} (e : exn) (o : option A) : res A := match o with Some a => Ok a | None => Err e end.
(** np.array(tuple(line.split()), dtype=dtype): ValueError for another number
    of words and for words that are not numbers *)
Definition term_of_line (line : string) : res term :=
  match words line with
  | i :: s :: c :: ns =>
      if (List.length ns =? 14)%nat then
        do i <- opt_res ValueError (integer i) ;;
        do s <- opt_res ValueError (decimal s) ;;
        do c <- opt_res ValueError (decimal c) ;;
        do ns <- mapM (fun n => opt_res ValueError (integer n)) ns ;;
        Ok (Term i (single (fst s) (10 ^ Z.of_nat (snd s))) (single (fst c) (10 ^ Z.of_nat (snd c))) ns)
      else Err ValueError
  | _ => Err ValueError
  end.
(** np.zeros((n0), dtype=dtype) filled from file_contents[start:start+n0] *)
Definition terms_at (lines : list string) (start n : nat) : res (list term) :=
  do ts <- mapM term_of_line (firstn n (skipn start lines)) ;;
  Ok (ts ++ repeat zero_term (n - List.length ts))%list.
Definition table := (list term * list term)%type.
Definition parse_table (lines : list string) (s0 n0 s1 n1 : nat) : res table :=
  do t0 <- terms_at lines s0 n0 ;;
  do t1 <- terms_at lines s1 n1 ;;
  Ok (t0, t1).
(** astro.py:946-976, 978-1002 and 1004-1029 *)
Definition parse_table_5_2e (lines : list string) : res table := parse_table lines 53 33 90 1.
Definition parse_table_5_3a (lines : list string) : res table := parse_table lines 22 1320 1348 38.
Definition parse_table_5_3b (lines : list string) : res table := parse_table lines 22 1037 1065 19.

(** What timescale.time.Timescale(MJD=T*_century + _mjd_j2000) has for a time
    (astro.py:654, 717, 806): [clock_tt] terrestrial time in Julian days,
    [clock_T] centuries since 2000-01-01T12:00:00, [clock_st] sidereal time,
    [clock_unit] masec2rad *)
Record clock := Clock { clock_tt : R; clock_T : R; clock_st : R; clock_unit : R }.

(** np.dot of multipliers and arguments *)
Fixpoint dot_int (ns : list Z) (xs : list R) : R :=
  match ns, xs with n :: ns, x :: xs => IZR n * x + dot_int ns xs | _, _ => 0 end.
(** np.dot of a column of coefficients with the sines or cosines of the arguments *)
Fixpoint dot_terms (coefficient : term -> R) (value : term -> R) (ts : list term) : R :=
  match ts with [] => 0 | t :: ts => coefficient t * value t + dot_terms coefficient value ts end.
(** np.dot(l0['As'], np.sin(arg0)) + np.dot(l0['Ac'], np.cos(arg0)) +
    ts.T*np.dot(l1['As'], np.sin(arg1)) + ts.T*np.dot(l1['Ac'], np.cos(arg1)) *)
Definition series (tb : table) (arg : term -> R) (T : R) : R :=
  dot_terms (fun t => single_value (sine t)) (fun t => sin (arg t)) (fst tb)
  + dot_terms (fun t => single_value (cosine t)) (fun t => cos (arg t)) (fst tb)
  + T * dot_terms (fun t => single_value (sine t)) (fun t => sin (arg t)) (snd tb)
  + T * dot_terms (fun t => single_value (cosine t)) (fun t => cos (arg t)) (snd tb).

(** astro.py:788-833 _nutation_angles: only the first five columns of
    multipliers are used *)
Definition jd_mjd : R := 2400000.5.
Definition nutation_angles (c : clock) (longitude obliquity : table) : R * R :=
  let fa := delaunay_arguments (clock_tt c - jd_mjd) in
  let arg := fun t => dot_int (firstn 5 (multipliers t)) fa in
  (clock_unit c * series longitude arg (clock_T c), clock_unit c * series obliquity arg (clock_T c)).

(** astro.py:736-744 arguments of the planets and the precession *)
Definition planet_coefs : list (list R) :=
  [ [4.402608842; 2608.7903141574]; [3.176146697; 1021.3285546211]; [1.753470314; 628.3075849991];
    [6.203480913; 334.0612426700]; [0.599546497; 52.9690962641]; [0.874016757; 21.3299104960];
    [5.481293872; 7.4781598567]; [5.311886287; 3.8133035638]; [0; 0.024381750; 0.00000538691] ].
Definition complement_arguments (T : R) : list R :=
  map (fun x => rmod x (2 * PI)) (eqeq_arguments T ++ map (fun cs => polynomial_sum cs T) planet_coefs)%list.
(** astro.py:706-761 _eqeq_complement *)
Definition eqeq_complement (c : clock) (sidereal : table) : R :=
  let fa := complement_arguments (clock_T c) in
  clock_unit c * series sidereal (fun t => dot_int (multipliers t) fa) (clock_T c).

(** astro.py:655-663 gast *)
Definition gast_of (c : clock) (longitude obliquity sidereal : table) : R :=
  let epsilon := mean_obliquity (clock_tt c - jd_mjd) in
  let (dpsi, deps) := nutation_angles c longitude obliquity in
  let eqeq := dpsi * cos (epsilon + deps) + eqeq_complement c sidereal in
  rmod (clock_st c + eqeq / 24) 1.
(** with the tables read from the lines of the three files *)
Definition gast (c : clock) (lines_a lines_b lines_e : list string) : res R :=
  do a <- parse_table_5_3a lines_a ;;
  do b <- parse_table_5_3b lines_b ;;
  do e <- parse_table_5_2e lines_e ;;
  Ok (gast_of c a b e).
