(** Model of the Doodson number codecs (pyTMD/arguments.py:333-476, 1542-1650). *)
From Coq Require Import String Ascii List ZArith Bool Lia.
From Verif Require Import PyBase StrBase DoodsonData.
Import ListNotations.
Open Scope Z_scope.

(** Characters of a Doodson string.  Simplification: characters other than
    digits, '.', 'X' and 'E' are only distinguished by whether the regular
    expression \w matches them. *)
Inductive dchar := Dig (d : Z) | Dot | CX | CE | Other (word : bool).

(** Result of _to_doodson_number: a number with three decimals, given in
    thousandths ([np.round(DO, decimals=3)]; the float closest to k/1000), or a
    string. *)
Inductive dnum := Num (thousandths : Z) | Str (s : list dchar).

(** arguments.py:1565-1567: first six coefficients, 5 added to all but the first. *)
Definition offset (coef : list Z) : list Z :=
  match firstn 6 coef with
  | [] => []
  | a :: l => a :: map (fun v => v + 5) l
  end.

Definition bad_digit (v : Z) : bool := (v <? 0) || (11 <? v).
Definition big_digit (v : Z) : bool := (v =? 10) || (v =? 11).

(** arguments.py:1576: str(v).replace('10','X').replace('11','E') for 0<=v<=11 *)
Definition digit_char (v : Z) : dchar :=
  if v =? 10 then CX else if v =? 11 then CE else Dig v.

(** arguments.py:1578-1581: np.sum([v*10**(2-o)]) in thousandths *)
Fixpoint weigh (l : list Z) (w : Z) : Z :=
  match l with [] => 0 | v :: l' => v * w + weigh l' (w / 10) end.

(** arguments.py:1542-1581 _to_doodson_number (astype float). *)
Definition to_doodson (coef : list Z) (raise_error : bool) : res (option dnum) :=
  let c := offset coef in
  if existsb bad_digit c then (if raise_error then Err ValueError else Ok None)
  else if existsb big_digit c then
    match map digit_char c with
    | [a; b; c'; d; e; f] => Ok (Some (Str [a; b; c'; Dot; d; e; f]))
    | _ => Err IndexError                       (* '{5}'.format with too few values *)
    end
  else Ok (Some (Num (weigh c 100000))).

(** str of a float k/1000 with 0 <= k < 10^6: shortest decimal form, no leading
    zeros before the units digit, at least one decimal. *)
Definition dec3 (n : Z) : list Z := [n / 100; (n / 10) mod 10; n mod 10].
Definition strip_lead (l : list Z) : list Z :=
  match l with
  | [0; 0; c] => [c]
  | [0; b; c] => [b; c]
  | _ => l
  end.
Definition strip_trail (l : list Z) : list Z :=
  match l with
  | [a; 0; 0] => [a]
  | [a; b; 0] => [a; b]
  | _ => l
  end.
Definition str_num (k : Z) : list dchar :=
  map Dig (strip_lead (dec3 (k / 1000))) ++ [Dot] ++ map Dig (strip_trail (dec3 (k mod 1000))).

(** str.zfill(7) for an unsigned string *)
Definition zfill7 (s : list dchar) : list dchar := repeat (Dig 0) (7 - List.length s) ++ s.

Definition is_word (c : dchar) : bool :=
  match c with Dig _ | CX | CE => true | Dot => false | Other w => w end.

(** int(c.replace('X','10').replace('E','11')) *)
Definition char_int (c : dchar) : res Z :=
  match c with Dig d => Ok d | CX => Ok 10 | CE => Ok 11 | Dot | Other _ => Err ValueError end.

(** arguments.py:1607-1627 _from_doodson_number *)
Definition from_doodson (d : dnum) : res (list Z) :=
  let s := match d with Num k => str_num k | Str s => s end in
  do l <- mapM char_int (filter is_word (zfill7 s)) ;;
  match l with
  | [] => Ok []
  | a :: l' => Ok (a :: map (fun v => v - 5) l')
  end.

(** ** Extended Doodson numbers *)
(** arguments.py:1600 (and 1647): digits = 'RSTUVWXYZABCDEFGHIJKLMNOP' *)
Definition xdigits : list ascii := list_ascii_of_string "RSTUVWXYZABCDEFGHIJKLMNOP".

(** python indexing of a string: negative indices count from the end *)
Definition py_index {A} (l : list A) (i : Z) : res A :=
  let n := Z.of_nat (List.length l) in
  let j := if i <? 0 then i + n else i in
  if (0 <=? j) && (j <? n)
  then match nth_error l (Z.to_nat j) with Some x => Ok x | None => Err IndexError end
  else Err IndexError.

(** arguments.py:1583-1605 _to_extended_doodson *)
Definition to_extended (coef : list Z) : res (list ascii) :=
  mapM (fun v => py_index xdigits (v + 8)) coef.

(** str.index: first position, ValueError if absent *)
Fixpoint str_index (c : ascii) (l : list ascii) (i : Z) : res Z :=
  match l with
  | [] => Err ValueError
  | x :: l' => if Ascii.eqb x c then Ok i else str_index c l' (i + 1)
  end.

(** arguments.py:1629-1650 _from_extended_doodson *)
Definition from_extended (s : list ascii) : res (list Z) :=
  mapM (fun c => do i <- str_index c xdigits 0 ;; Ok (i - 8)) s.

(** ** Coefficient table and doodson_number *)
(** arguments.py:333-394 coefficients_table for one constituent. *)
Definition otis_corr (corr : string) : bool :=
  existsb (String.eqb corr) ["OTIS"; "ATLAS"; "TMD3"; "netcdf"]%string.

Definition assoc {V} (k : string) (l : list (string * V)) : option V :=
  match find (fun p => String.eqb (fst p) k) l with Some p => Some (snd p) | None => None end.

Definition coefficients (corr c : string) : res (list Z) :=
  if otis_corr corr && String.eqb c "s1" then Ok [1; 1; -1; 0; 0; 0; 1]
  else match assoc c doodson_table with Some v => Ok v | None => Err ValueError end.

(** str.title for ASCII: a letter is upper case exactly when it does not follow
    a letter. *)
Fixpoint title_from (prev : bool) (s : string) : string :=
  match s with
  | EmptyString => EmptyString
  | String c s' =>
      String (if prev then lower_ascii c else upper_ascii c)
             (title_from (is_upper c || is_lower c) s')
  end.
Definition title (s : string) : string := title_from false s.

Inductive formalism := Cartwright | Doodson | Extended.
Definition parse_formalism (s : string) : res formalism :=
  let t := title s in
  if String.eqb t "Cartwright" then Ok Cartwright
  else if String.eqb t "Doodson" then Ok Doodson
  else if String.eqb t "Extended" then Ok Extended
  else Err AssertionError.

Inductive number := NCart (c : list Z) | NDood (d : option dnum) | NExt (s : list ascii).

(** arguments.py:396-476 doodson_number for a single name (lines 430-451). *)
Definition identify (f : formalism) (raise_error : bool) (coef : list Z) : res number :=
  match f with
  | Cartwright => Ok (NCart (firstn 6 coef))
  | Doodson => do d <- to_doodson coef raise_error ;; Ok (NDood d)
  | Extended => do s <- to_extended coef ;; Ok (NExt s)
  end.

Definition doodson_number_one (corr form : string) (raise_error : bool) (c : string)
  : res (option number) :=
  do f <- parse_formalism form ;;
  match coefficients corr (lower c) with
  | Ok coef => do n <- identify f raise_error coef ;; Ok (Some n)
  | Err ValueError => if raise_error then Err ValueError else Ok None
  | Err e => Err e
  end.

(** arguments.py:452-474: a dictionary keyed by the input names (insertion
    order; a repeated key keeps its first position and takes the last value,
    which is the same value). *)
Definition doodson_number_list (corr form : string) (raise_error : bool) (cs : list string)
  : res (list (string * option number)) :=
  do f <- parse_formalism form ;;
  mapM (fun c => do n <- doodson_number_one corr form raise_error c ;; Ok (c, n))
    (nodup string_dec cs).
