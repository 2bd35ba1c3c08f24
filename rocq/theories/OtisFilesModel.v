(** OTIS files from their bytes to a tide model that can be asked for constants:
    the readers of OtisModel are put together with the extraction of ExtractModel as in
    OTIS.py extract_constants (172-521), for one file with all constituents and for a
    list of files with one constituent each.

    Simplifications: the files are read before the points are looked at, so that of two
    errors another one may come first; limits and depths that are nan or infinite are not
    modelled (an error here); names are decoded as ASCII; exact arithmetic on the values
    of the single-precision numbers. *)
From Coq Require Import String Ascii Reals ZArith List Bool.
From Verif Require Import PyBase RBase OtisModel InterpModel PredictModel ComputeModel ExtractModel ElevationModel.
Import ListNotations.
Open Scope list_scope.

(** the value of a 32-bit pattern, None for nan and infinities *)
Definition float32 (x : Z) : option R :=
  let e := ((x / 2 ^ 23) mod 256)%Z in let m := (x mod 2 ^ 23)%Z in
  if (e =? 255)%Z then None
  else
    let n := (if e =? 0 then m else 2 ^ 23 + m)%Z in
    let p := (if e =? 0 then -149 else e - 150)%Z in
    Some (IZR (if (2 ^ 31 <=? x)%Z then - n else n) * powerRZ 2 p)%R.
Definition finite (x : Z) : res R := match float32 x with Some r => Ok r | None => Err OtherError end.
Definition limits (l : list Z) : res (R * R) :=
  match l with [a; b] => do x <- finite a ;; do y <- finite b ;; Ok (x, y) | _ => Err IndexError end.
(** OTIS.py:914-975 read_otis_grid: the arrays and the axes *)
Definition grid_of_file (file : list Z) : res grid :=
  do g <- run read_otis_grid file ;;
  do xlim <- limits (g_xlim g) ;; do ylim <- limits (g_ylim g) ;; do dt <- finite (g_dt g) ;;
  do hz <- mapM (mapM finite) (g_hz g) ;;
  let axes := otis_axes xlim ylim dt (Z.to_nat (g_nx g)) (Z.to_nat (g_ny g)) in
  Ok (Grid (fst axes) (snd axes) hz (g_mz g)).
(** a complex value of a masked array *)
Definition value (e : entry) : gcell cpx :=
  (match float32 (re e), float32 (im e) with Some a, Some b => Some (a, b) | _, _ => None end, OtisModel.masked e).
Definition values (m : list (list entry)) : field := map (map value) m.

Inductive source := OneFile (file : list Z) | FilePerConstituent (files : list (list Z)).
Definition decode (c : list Z) : string := string_of_list_ascii (map (fun b => ascii_of_N (Z.to_N b)) c).
(** OTIS.py:399-403: names and their number; pop takes the last name of a file *)
Definition names_of (src : source) : res (list string * Z) :=
  match src with
  | OneFile f => do r <- run read_constituents f ;; Ok (map decode (fst r), snd r)
  | FilePerConstituent fs =>
      do l <- mapM (fun f => do r <- run read_constituents f ;; match rev (fst r) with [] => Err IndexError | c :: _ => Ok (decode c) end) fs ;;
      Ok (l, Z.of_nat (List.length l))
  end.
(** OTIS.py:412-450: the array of constituent i *)
Definition read_variable (t : variable) (ic : nat) (file : list Z) : res field :=
  match t with
  | Vz => do h <- run (read_otis_elevation ic) file ;; Ok (values h)
  | Vu | VU => do p <- run (read_otis_transport ic) file ;; Ok (values (fst p))
  | Vv | VV => do p <- run (read_otis_transport ic) file ;; Ok (values (snd p))
  | Vother => Err NameError
  end.
Definition read_field (t : variable) (src : source) (i : nat) : res field :=
  match src with
  | OneFile f => read_variable t i f
  | FilePerConstituent fs => do f <- get1 fs i ;; read_variable t 0 f
  end.

(** OTIS.py:407-412: the arrays have nc columns; a column without a name keeps its
    zeros, and a name without a column is an IndexError *)
Definition otis_files (fwd : R * R -> R * R) (geo : bool) (t : variable) (gridfile : list Z) (src : source) other
    (corr : string) (minor : option (list string)) : res batch_model :=
  do g <- grid_of_file gridfile ;;
  do n <- names_of src ;;
  let names := fst n in let nc := snd n in
  do _ <- (if (nc <? 0)%Z then Err ValueError else Ok tt) ;;
  do hcs <- mapM (read_field t src) (seq 0 (List.length names)) ;;
  do _ <- (if (nc <? Z.of_nat (List.length names))%Z then Err IndexError else Ok tt) ;;
  Ok (BM (by_method (fun me ll =>
        do out <- extract_constants fwd geo me t g hcs ll ;;
        Ok (map (fun r => snd r ++ repeat (Some (0, 0)%R) (Z.to_nat nc - List.length names)) out)) other) names corr minor).
