(** Model of the ocean pole tide coefficient map (pyTMD/io/IERS.py:131-209). *)
From Coq Require Import List ZArith Bool.
From Verif Require Import PyBase GridModel GridSpec.
Import ListNotations.
Open Scope Z_scope.

(** Unit: quarter degrees (4 per degree): the half-degree cell centres of the
    table are odd multiples of a quarter degree. *)
Definition iu : Z := 4.

(** IERS.py:180-184: [np.arange(0.25, 360.25, 0.5)] and
    [np.arange(89.75, -90.25, -0.5)]. *)
Definition glon : list Z := even_axis 1 2 720.
Definition glat : list Z := even_axis 359 (-2) 360.

(** A data line: longitude, latitude, value (the six coefficients). *)
Record record (V : Type) := { r_lon : Z; r_lat : Z; r_val : V }.
Arguments r_lon {V}. Arguments r_lat {V}. Arguments r_val {V}.

(** IERS.py:193-194: [int(ln/dlon)], [int((90-lt)/dlat)]; int() truncates.
    Negative indices (numpy wrap-around) are not modelled: they are kept
    negative and never stored in a cell. *)
Definition ilon {V} (r : record V) : Z := Z.quot (r_lon r) 2.
Definition ilat {V} (r : record V) : Z := Z.quot (360 - r_lat r) 2.

(** IERS.py:191-197: sequential assignment; the map starts with zeros ([None]). *)
Definition fill {V} (rs : list (record V)) (i j : Z) : option V :=
  fold_left (fun acc r => if (ilon r =? i) && (ilat r =? j) then Some (r_val r) else acc) rs None.

(** One parallel of the map: columns 0..719 at latitude index [j]. *)
Definition parallel {V} (rs : list (record V)) (j : Z) : list (option V) :=
  map (fun i => fill rs (Z.of_nat i) j) (seq 0 720).

(** IERS.py:199-207: shift to -180:180 and pad, axis and one parallel. *)
Definition final_glon : res (list Z) :=
  do l <- shift_axis iu (180 * iu) (360 * iu) West glon ;; extend_array l 2.
Definition final_parallel {V} (rs : list (record V)) (j : Z) : res (list (option V)) :=
  do l <- shift_row iu (180 * iu) (360 * iu) glon (parallel rs j) ;; extend_row l.

(** Specification vocabulary: a data line located at the centre of cell (i,j)
    of the half-degree grid. *)
Definition at_cell {V} (r : record V) (i j : Z) : Prop :=
  0 <= i < 720 /\ 0 <= j < 360 /\ r_lon r = 2 * i + 1 /\ r_lat r = 359 - 2 * j.

