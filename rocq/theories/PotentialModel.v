(** Model of pyTMD/arguments.py:1494-1540 _parse_tide_potential_table.
    Simplifications: as for the tables of nutation (NutationModel): numbers have
    no exponent part and no underscores, integers do not overflow 32 bits and
    numbers are within the normal range of single precision; characters are
    bytes. *)
From Coq Require Import String Ascii List ZArith Bool.
From Verif Require Import PyBase NutationModel DoodsonModel.
Import ListNotations.

(** One row of the structured array (arguments.py:1531-1533): tau, s, h, p, n, pp;
    Hs1, Hs2, Hs3 in single precision; DO; Hs0 in single precision *)
Record wave := Wave { cartwright : list Z; hs1 : Z * Z; hs2 : Z * Z; hs3 : Z * Z; doodson : string; hs0 : Z * Z }.

(** format 'U7': characters after the seventh are dropped *)
Definition seven (s : string) : string := String.substring 0 7 s.
(** format 'f' *)
Definition single_of (s : string) : res (Z * Z) :=
  do p <- opt_res ValueError (decimal s) ;;
  Ok (single (fst p) (10 ^ Z.of_nat (snd p))).
(** np.array(tuple(line.split()[:11]), dtype=dtype) (arguments.py:1537): ValueError
    for fewer words and for words that are not numbers *)
Definition wave_of_line (line : string) : res wave :=
  match firstn 11 (words line) with
  | [t; s; h; p; n; pp; a1; a2; a3; name; a0] =>
      do ks <- mapM (fun n => opt_res ValueError (integer n)) [t; s; h; p; n; pp] ;;
      do a1 <- single_of a1 ;;
      do a2 <- single_of a2 ;;
      do a3 <- single_of a3 ;;
      do a0 <- single_of a0 ;;
      Ok (Wave ks a1 a2 a3 (seven name) a0)
  | _ => Err ValueError
  end.
(** arguments.py:1501-1540, from the lines of the file *)
Definition parse_potential (lines : list string) : res (list wave) := mapM wave_of_line lines.

(** Characters of a string as _from_doodson_number sees them (arguments.py:1622-1624) *)
Definition character (a : ascii) : dchar :=
  let n := nat_of_ascii a in
  if ((48 <=? n) && (n <=? 57))%nat then Dig (Z.of_nat n - 48)
  else if Ascii.eqb a "." then Dot
  else if Ascii.eqb a "X" then CX
  else if Ascii.eqb a "E" then CE
  else Other (((65 <=? n) && (n <=? 90)) || ((97 <=? n) && (n <=? 122)) || (n =? 95) || (128 <=? n))%nat.
Definition characters (s : string) : list dchar := map character (list_ascii_of_string s).
(** str(DO).zfill(7) of a Doodson number (test/test_arguments.py:867) *)
Definition padded (d : dnum) : list dchar :=
  zfill7 (match d with Num k => str_num k | Str s => s end).
