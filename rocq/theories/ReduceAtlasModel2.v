(** The writing of a reduced ATLAS-compact grid (scripts/reduce_OTIS_files.py:130-139).

    The arrays are those of ReduceAtlasModel; [single] and [depth] are the casts of a limit and
    of a depth (None is nan) to '>f4'; the open boundary nodes and the time step are those that
    read_atlas_grid gives. *)
From Coq Require Import Reals List ZArith.
From Verif Require Import PyBase GeoModel GridModel InterpModel ExtractModel OtisModel MergeModel ReduceModel ReduceAtlasModel.
Import ListNotations.

(** 130-139: np.array(..., dtype='>f4'), hz1 of '>f4', mz1 of '>i4', output_otis_grid *)
Definition reduced_atlas_file (corner : R * R -> R * R) (single : R -> Z) (depth : option R -> Z) (xmin xmax ymin ymax : R) (x0 y0 : list R)
    (hz0 : list (list (gcell R))) (mz0 : list (list Z)) (ls : list (local R)) (iob : list (Z * Z)) (dt : Z) : res (list Z) :=
  do r <- reduced_atlas corner xmin xmax ymin ymax x0 y0 hz0 mz0 ls ;;
  let ny := length (r_hz r) in let nx := length (hd [] (r_hz r)) in
  output_otis_grid (DT 4 true) (single (fst (r_xlim r)), single (snd (r_xlim r))) (single (fst (r_ylim r)), single (snd (r_ylim r)))
    (array (map (map depth) (r_hz r)) ny nx) (array (r_mz r) ny nx) (DT 4 true) iob dt.
