(** The reduction of an ATLAS-compact grid to a region (scripts/reduce_OTIS_files.py:95-104,
    106-136): the arrays that are handed to output_otis_grid.

    The numbers read by read_atlas_grid are given; the transformation of the corners of the box
    is a parameter as in ReduceModel; exact arithmetic (the casts to '>f4' and '>i4' and the
    writing of the file are those of ReduceModel and left out here); None is nan. *)
From Coq Require Import Reals List Bool Arith ZArith.
From Verif Require Import PyBase GeoModel GridModel InterpModel ExtractModel MergeModel ReduceModel.
From Verif Require ComputeModel.
Import ListNotations.
Open Scope R_scope.

(** a[indy,indx] of an array: 135-136 *)
Definition taken {A} (d : A) (m : list (list A)) (ind : list (nat * nat)) : list A :=
  map (fun p => nth (snd p) (nth (fst p) m []) d) ind.
(** xlim, ylim, hz1, mz1: 130-136 *)
Record region := Region { r_xlim : R * R; r_ylim : R * R; r_hz : list (list (option R)); r_mz : list (list Z) }.

(** 97-101 (x0, y0, hz0, mz0 and the local solutions), 106-136; assigning a masked array to a
    part of an array copies its data *)
Definition reduced_atlas (corner : R * R -> R * R) (xmin xmax ymin ymax : R) (x0 y0 : list R)
    (hz0 : list (list (gcell R))) (mz0 : list (list Z)) (ls : list (local R)) : res region :=
  do hz <- combine_atlas_model x0 y0 hz0 ls ;;
  do mz <- create_atlas_mask x0 y0 mz0 ls ;;
  let box := corners corner xmin xmax ymin ymax in
  let sx := spread (map fst box) in let sy := spread (map snd box) in
  let ind := nodes_inside sx sy x30 y30 in
  let nx := length (filter (inside sx) x30) in let ny := length (filter (inside sy) y30) in
  do dx <- spacing x30 ;; do dy <- spacing y30 ;;
  match ind with
  | [] => Err IndexError
  | first :: _ =>
      let final := last ind first in
      do hz1 <- ComputeModel.reshape ny nx (taken None hz ind) ;;
      do mz1 <- ComputeModel.reshape ny nx (map fst (taken (0%Z, true) mz ind)) ;;
      Ok (Region (nth (snd first) x30 0 - dx / 2, nth (snd final) x30 0 + dx / 2)
                 (nth (fst first) y30 0 - dy / 2, nth (fst final) y30 0 + dy / 2) hz1 mz1)
  end.
