(** Model of the longitude bookkeeping of the model readers:
    axis/matrix extension, shifting, cropping and the adjustment of query
    longitudes to the convention of a model.

    Longitudes are integers in a fixed-point unit with [u] units per degree
    (see DESIGN.md); the fields are lists of rows of an arbitrary type.  A
    matrix row and the longitude axis are always transformed by the same code
    ([temp[:, ...]] and [lon[...]]), so the matrix functions act row by row. *)
From Coq Require Import List ZArith Lia Bool.
From Verif Require Import PyBase.
Import ListNotations.
Open Scope Z_scope.

(** pyTMD/io/OTIS.py:1925-1947, ATLAS.py:1209-1231, FES.py:878-900,
    IERS.py:223-245 [_extend_array]: [x0-dx, x0, ..., xN, xN+dx];
    indexing an empty array raises IndexError. *)
Definition extend_array (xs : list Z) (step : Z) : res (list Z) :=
  match xs with
  | [] => Err IndexError
  | x0 :: _ => Ok ((x0 - step) :: xs ++ [last xs x0 + step])
  end.

(** OTIS.py:1950-1974, ATLAS.py:1234-1258, FES.py:903-927
    [_extend_matrix], one row: [last, row..., first].  (IERS.py:248-267 is the
    same along the other axis.) *)
Definition extend_row {A} (row : list A) : res (list A) :=
  match row with
  | [] => Err IndexError
  | r0 :: _ => Ok (last row r0 :: row ++ [r0])
  end.

(** GOT.py:762-785 [_extend_array]: one column before, two after. *)
Definition extend_array_got (xs : list Z) (step : Z) : res (list Z) :=
  match xs with
  | [] => Err IndexError
  | x0 :: _ => Ok ((x0 - step) :: xs ++ [last xs x0 + step; last xs x0 + 2 * step])
  end.

(** GOT.py:788-813 [_extend_matrix], one row; [input_matrix[:,1]] raises
    IndexError for a single column. *)
Definition extend_row_got {A} (row : list A) : res (list A) :=
  match row with
  | r0 :: r1 :: _ => Ok (last row r0 :: row ++ [r0; r1])
  | _ => Err IndexError
  end.

Inductive direction := East | West | OtherDir.

(** Offset of [_shift] (e.g. FES.py:1022): 0 unless the axis spans the cycle to
    within 1e-4 degrees ([|d| <= 1e-4 deg] iff [10000*|d| <= u]). *)
Definition shift_offset (u cyclic : Z) (xs : list Z) : res nat :=
  match xs with
  | [] => Err IndexError
  | x0 :: _ => Ok (if 10000 * Z.abs (last xs x0 - x0 - cyclic) >? u then 0 else 1)%nat
  end.

(** Index of the new base longitude (FES.py:1023): first minimum of |ilon-lon0|. *)
Definition shift_index (lon0 : Z) (xs : list Z) : res nat :=
  np_argmin (map (fun x => Z.abs (x - lon0)) xs).

(** The two slice assignments of [_shift] (FES.py:1026-1027 and 1039-1040):
    [t[0:-i0] = v[i0:]] and [t[-i0:] = v[offset:i0+offset]].  For [i0 = 0] the
    slice [0:-0] is empty and the assignment of [len(v)] elements raises
    ValueError (for [len(v)=1] the second assignment does). *)
Definition rotate_list {A} (i0 offset : nat) (v : list A) : res (list A * list A) :=
  match i0 with
  | O => Err ValueError
  | _ => Ok (skipn i0 v, slice offset (i0 + offset) v)
  end.

(** [_shift] on the longitude axis (OTIS.py:2077-2087, FES.py:1021-1032 and the
    identical copies in ATLAS, GOT, IERS). *)
Definition shift_axis (u lon0 cyclic : Z) (d : direction) (xs : list Z) : res (list Z) :=
  do offset <- shift_offset u cyclic xs ;;
  do i0 <- shift_index lon0 xs ;;
  do p <- rotate_list i0 offset xs ;;
  Ok (match d with
      | East => fst p ++ map (fun x => x + cyclic) (snd p)
      | West => map (fun x => x - cyclic) (fst p) ++ snd p
      | OtherDir => fst p ++ snd p
      end).

(** [_shift] on one row of the matrix (OTIS.py:2088-2092, FES.py:1033-1042). *)
Definition shift_row {A} (u lon0 cyclic : Z) (xs : list Z) (row : list A) : res (list A) :=
  do offset <- shift_offset u cyclic xs ;;
  do i0 <- shift_index lon0 xs ;;
  do p <- rotate_list i0 offset row ;;
  Ok (fst p ++ snd p).

(** [np.flatnonzero] of a predicate over a list: increasing indices. *)
Fixpoint flatnonzero_from {A} (i : nat) (f : A -> bool) (l : list A) : list nat :=
  match l with
  | [] => []
  | a :: l' => if f a then i :: flatnonzero_from (S i) f l'
               else flatnonzero_from (S i) f l'
  end.
Definition flatnonzero {A} (f : A -> bool) (l : list A) : list nat := flatnonzero_from 0 f l.

(** [slice(ind[0], ind[-1]+1)] (FES.py:978-979); IndexError when [ind] is empty. *)
Definition ind_slice {A} (ind : list nat) (l : list A) : res (list A) :=
  match ind with
  | [] => Err IndexError
  | i :: _ => Ok (slice i (S (last ind i)) l)
  end.

Definition in_range (lo hi x : Z) : bool := (x >=? lo) && (x <=? hi).

Record bbox := { bx0 : Z; bx1 : Z; by0 : Z; by1 : Z }.

(** First part of [_crop] (OTIS.py:2011-2016, FES.py:962-968): bring the model
    to the longitude convention of the bounds. [geo] is [is_geographic]
    (always true in ATLAS, FES and GOT). *)
Definition crop_convention (u : Z) (geo : bool) (b : bbox) (xs : list Z)
  : res (option (Z * direction)) :=
  do mx <- np_max xs ;;
  do mn <- np_min xs ;;
  Ok (if geo && (Z.min (bx0 b) (bx1 b) <? 0) && (mx >? 180 * u)
      then Some (180 * u, West)
      else if geo && (Z.max (bx0 b) (bx1 b) >? 180 * u) && (mn <? 0)
      then Some (0, East)
      else None).

(** [_crop] (OTIS.py:1977-2035, ATLAS.py:1261-1316, FES.py:930-985,
    GOT.py:816-871); rows of the matrix are indexed by [ys]. *)
Definition crop {A} (u : Z) (geo : bool) (b : bbox) (buf : Z)
    (m : list (list A)) (xs ys : list Z) : res (list (list A) * list Z * list Z) :=
  do conv <- crop_convention u geo b xs ;;
  do xs' <- match conv with
            | Some (x0, d) => shift_axis u x0 (360 * u) d xs
            | None => Ok xs
            end ;;
  do m' <- match conv with
           | Some (x0, _) => mapM (shift_row u x0 (360 * u) xs) m
           | None => Ok m
           end ;;
  let yind := flatnonzero (in_range (by0 b - buf) (by1 b + buf)) ys in
  let xind := flatnonzero (in_range (bx0 b - buf) (bx1 b + buf)) xs' in
  do rows <- ind_slice yind m' ;;
  do temp <- mapM (ind_slice xind) rows ;;
  do x <- ind_slice xind xs' ;;
  do y <- ind_slice yind ys ;;
  Ok (temp, x, y).

(** ** Longitude convention of query points *)

(** [x[x < 0] += 360.0] *)
Definition add_neg (u : Z) (xs : list Z) : list Z :=
  map (fun x => if x <? 0 then x + 360 * u else x) xs.
(** [x[x > 180] -= 360.0] *)
Definition sub_big (u : Z) (xs : list Z) : list Z :=
  map (fun x => if x >? 180 * u then x - 360 * u else x) xs.

(** OTIS.py:310-317 (extract_constants, no cropping, geographic) and
    OTIS.py:804-809 (interpolate_constants): both corrections in sequence,
    decided by the extremes of the batch; [lo],[hi] are [np.min(xi)],[np.max(xi)]. *)
Definition convention_otis (u lo hi : Z) (xs : list Z) : res (list Z) :=
  do mn <- np_min xs ;;
  let xs1 := if mn <? lo then add_neg u xs else xs in
  do mx <- np_max xs1 ;;
  Ok (if mx >? hi then sub_big u xs1 else xs1).

(** FES.py:271-278 / 501-508, GOT.py:248-255 / 450-457, ATLAS.py:255-262 /
    568-575: one or the other correction. *)
Definition convention_fes (u lo hi : Z) (xs : list Z) : res (list Z) :=
  do mn <- np_min xs ;;
  do mx <- np_max xs ;;
  Ok (if (mn <? 0) && (hi >? 180 * u) then add_neg u xs
      else if (mx >? 180 * u) && (lo <? 0) then sub_big u xs
      else xs).

(** OTIS.py:327 / FES.py:285 [invalid]: outside of the (possibly extended) axis. *)
Definition outside (lo hi x : Z) : bool := (x <? lo) || (x >? hi).

(** OTIS.py:322, FES.py:281, ...: extension applies when the axis spans
    360 - step (np.isclose tolerance not modelled: exact in the fixed-point unit). *)
Definition is_global_axis (u step : Z) (xs : list Z) : bool :=
  match xs with
  | [] => false
  | x0 :: _ => (last xs x0 - x0 =? 360 * u - step)
  end.

Definition extend_if_global (u step : Z) (xs : list Z) : res (list Z) :=
  if is_global_axis u step xs then extend_array xs step else Ok xs.

(** extract_constants of OTIS (OTIS.py:310-328, crop=False, geographic): the
    convention is decided with the axis *before* extension, the validity with
    the axis *after* extension.  Result: (adjusted longitude, invalid flag). *)
Definition locate_otis_extract (u step : Z) (axis xs : list Z) : res (list (Z * bool)) :=
  do lo <- np_min axis ;;
  do hi <- np_max axis ;;
  do xs' <- convention_otis u lo hi xs ;;
  do ext <- extend_if_global u step axis ;;
  do lo' <- np_min ext ;;
  do hi' <- np_max ext ;;
  Ok (map (fun x => (x, outside lo' hi' x)) xs').

(** read_constants + interpolate_constants of OTIS (OTIS.py:614-617, 804-811):
    the stored axis is already extended. *)
Definition locate_otis_interpolate (u step : Z) (axis xs : list Z) : res (list (Z * bool)) :=
  do ext <- extend_if_global u step axis ;;
  do lo <- np_min ext ;;
  do hi <- np_max ext ;;
  do xs' <- convention_otis u lo hi xs ;;
  Ok (map (fun x => (x, outside lo hi x)) xs').

(** extract_constants of FES / ATLAS (FES.py:271-286, ATLAS.py:255-274). *)
Definition locate_fes_extract (u step : Z) (axis xs : list Z) : res (list (Z * bool)) :=
  do lo <- np_min axis ;;
  do hi <- np_max axis ;;
  do xs' <- convention_fes u lo hi xs ;;
  do ext <- extend_if_global u step axis ;;
  do lo' <- np_min ext ;;
  do hi' <- np_max ext ;;
  Ok (map (fun x => (x, outside lo' hi' x)) xs').

(** read_constants + interpolate_constants of FES / ATLAS (FES.py:431-437,
    493-511; ATLAS.py:461-467, 560-578): the stored axis is already extended. *)
Definition locate_fes_interpolate (u step : Z) (axis xs : list Z) : res (list (Z * bool)) :=
  do ext <- extend_if_global u step axis ;;
  do lo <- np_min ext ;;
  do hi <- np_max ext ;;
  do xs' <- convention_fes u lo hi xs ;;
  Ok (map (fun x => (x, outside lo hi x)) xs').
