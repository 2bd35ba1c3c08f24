(** Model of the small utilities of pyTMD/utilities.py (url_split,
    convert_arg_line_to_args, roman_to_int, even, ceil) and of
    pyTMD/spatial.py data_type.  Strings are ASCII. *)
From Coq Require Import String Ascii List Arith ZArith Bool Reals.
From Verif Require Import PyBase StrBase RBase.
Import ListNotations.
Open Scope string_scope.

(** * url_split: utilities.py lines 292-306 *)
Definition slash : ascii := "/".
(** s[:i], s[i:] with i = s.rfind('/') + 1 (posixpath.split) *)
Fixpoint rsplit (s : string) : string * string :=
  match s with
  | "" => ("", "")
  | String c s' =>
      let (h, t) := rsplit s' in
      match h with
      | "" => if Ascii.eqb c slash then (String c "", t) else ("", String c t)
      | _ => (String c h, t)
      end
  end.
(** head.rstrip('/') *)
Fixpoint rstrip (s : string) : string :=
  match s with
  | "" => ""
  | String c s' =>
      match rstrip s' with
      | "" => if Ascii.eqb c slash then "" else String c ""
      | r => String c r
      end
  end.
Fixpoint all_slashes (s : string) : bool :=
  match s with "" => true | String c s' => Ascii.eqb c slash && all_slashes s' end.
(** posixpath.split: trailing slashes of the head go, unless it is all slashes *)
Definition path_split (s : string) : string * string :=
  let (h, t) := rsplit s in
  (if all_slashes h then h else rstrip h, t).
(** [limit] calls are allowed before python raises RecursionError *)
Fixpoint url_split (limit : nat) (s : string) : res (list string) :=
  match limit with
  | O => Err OtherError
  | S n =>
      let (head, tail) := path_split s in
      if mem_str head ["http:"; "https:"; "ftp:"; "s3:"] then Ok [s]
      else if mem_str head [""; "/"] then Ok [tail]
      else do l <- url_split n head ;; Ok (l ++ [tail])%list
  end.

(** * convert_arg_line_to_args: utilities.py lines 309-322, one line without
    line breaks.  Everything from the first # goes, the rest is split at
    white space; the words of str.split are never blank, so the test of
    line 320 changes nothing. *)
Definition is_space (c : ascii) : bool :=
  let n := nat_of_ascii c in
  ((9 <=? n) && (n <=? 13) || ((28 <=? n) && (n <=? 32)))%nat.
Fixpoint uncomment (s : string) : string :=
  match s with
  | "" => ""
  | String c s' => if Ascii.eqb c "#" then "" else String c (uncomment s')
  end.
Fixpoint split_words (cur : string) (s : string) : list string :=
  match s with
  | "" => match cur with "" => [] | _ => [cur] end
  | String c s' =>
      if is_space c
      then match cur with "" => split_words "" s' | _ => cur :: split_words "" s' end
      else split_words (cur ++ String c "") s'
  end.
Definition convert_arg_line (s : string) : list string := split_words "" (uncomment s).

(** * roman_to_int: utilities.py lines 362-383 *)
Definition roman_map (c : ascii) : res Z :=
  if Ascii.eqb c "i" then Ok 1%Z else if Ascii.eqb c "v" then Ok 5%Z
  else if Ascii.eqb c "x" then Ok 10%Z else if Ascii.eqb c "l" then Ok 50%Z
  else if Ascii.eqb c "c" then Ok 100%Z else if Ascii.eqb c "d" then Ok 500%Z
  else if Ascii.eqb c "m" then Ok 1000%Z else Err KeyError.
(** the loop of lines 377-381; [prev] is roman_map[roman[i-1]] when i > 0 *)
Fixpoint roman_loop (prev : option Z) (output : Z) (s : string) : res Z :=
  match s with
  | "" => Ok output
  | String c s' =>
      do v <- roman_map c ;;
      let inc := match prev with
                 | Some p => if (p <? v)%Z then (v - 2 * p)%Z else v
                 | None => v
                 end in
      roman_loop (Some v) (output + inc)%Z s'
  end.
Definition roman_to_int (s : string) : res Z := roman_loop None 0 (lower s).

(** * even and ceil: utilities.py lines 433-454, of a real number *)
Definition even (v : R) : Z := (2 * rfloor (v / 2))%Z.
Definition ceil (v : R) : Z := (- rfloor (- v / 1))%Z.

(** * data_type: spatial.py lines 188-221, from the sizes of x, y and t and
    the number of dimensions of x *)
Definition data_type (xsize ysize tsize xdim : nat) : res string :=
  if ((xsize =? 1) && (ysize =? 1) && (1 <=? tsize))%nat then Ok "time series"
  else if ((xsize =? ysize) && (xsize =? tsize))%nat then Ok "drift"
  else if ((1 <? xdim) && (xsize =? ysize))%nat then Ok "grid"
  else if negb (xsize =? ysize)%nat then Ok "grid"
  else Err ValueError.
