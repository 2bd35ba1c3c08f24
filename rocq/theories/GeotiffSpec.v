(** Vocabulary of the statements about geotiff images (C73), independent of the functions
    of the model. *)
From Coq Require Import Reals String List Bool Arith ZArith.
From Verif Require Import ExtractSpec GeotiffModel.
Import ListNotations.
Open Scope R_scope.

(** an image of at least one band, row and column *)
Definition proper (r : raster) : Prop :=
  (1 <= rcols r)%nat /\ (1 <= rrows r)%nat /\ rbands r <> [] /\ forall band, In band (rbands r) -> rect (rrows r) (rcols r) band.
(** from west to east and from north to south *)
Definition north_up (r : raster) : Prop := 0 < pixel_x (rgt r) /\ pixel_y (rgt r) < 0.
(** the value of a pixel and the coordinates of its centre *)
Definition value (r : raster) (b j i : nat) : R := entry 0 (nth b (rbands r) []) j i.
Definition centre_x (r : raster) (i : nat) : R := left_x (rgt r) + (INR i + 1 / 2) * pixel_x (rgt r).
Definition centre_y (r : raster) (j : nat) : R := top_y (rgt r) + (INR j + 1 / 2) * pixel_y (rgt r).
(** the edges of a pixel *)
Definition west_edge (r : raster) (i : nat) : R := left_x (rgt r) + INR i * pixel_x (rgt r).
Definition north_edge (r : raster) (j : nat) : R := top_y (rgt r) + INR j * pixel_y (rgt r).

(** arrays as they are read: rows of columns if there is one band, else bands of rows *)
Inductive sized : arr -> nat -> nat -> nat -> Prop :=
  | Sized2 m ny nx : rect ny nx m -> sized (A2 m) 1 ny nx
  | Sized3 m nb ny nx : nb <> 1%nat -> length m = nb -> (forall p, In p m -> rect ny nx p) -> sized (A3 m) nb ny nx.
Inductive pixel : arr -> nat -> nat -> nat -> cell -> Prop :=
  | Pixel2 m j i row c : nth_error m j = Some row -> nth_error row i = Some c -> pixel (A2 m) 0 j i c
  | Pixel3 m b j i p row c : nth_error m b = Some p -> nth_error p j = Some row -> nth_error row i = Some c -> pixel (A3 m) b j i c.
(** arrays as they are written: bands last *)
Inductive stacked : arr -> nat -> nat -> nat -> Prop :=
  | Stacked2 m ny nx : rect ny nx m -> (1 <= ny)%nat -> (1 <= nx)%nat -> stacked (A2 m) ny nx 1
  | Stacked3 m ny nx nb : rect ny nx m -> (1 <= ny)%nat -> (1 <= nx)%nat -> (1 <= nb)%nat -> (forall row cs, In row m -> In cs row -> length cs = nb) -> stacked (A3 m) ny nx nb.
Inductive at_place : arr -> nat -> nat -> nat -> cell -> Prop :=
  | Place2 m j i row c : nth_error m j = Some row -> nth_error row i = Some c -> at_place (A2 m) j i 0 c
  | Place3 m j i b row cs c : nth_error m j = Some row -> nth_error row i = Some cs -> nth_error cs b = Some c -> at_place (A3 m) j i b c.

(** the value stands for none *)
Definition missing (nodata : option R) (v : R) : Prop := nodata = Some v /\ v <> 0.
(** what is returned are nx columns from ox and ny rows from oy of the image *)
Definition shows (r : raster) (ox oy nx ny : nat) (im : image) : Prop :=
  length (ix im) = nx /\ length (iy im) = ny /\
  (forall i, (i < nx)%nat -> nth i (ix im) 0 = centre_x r (ox + i)) /\ (forall j, (j < ny)%nat -> nth j (iy im) 0 = centre_y r (oy + j)) /\
  (exists a, idata im = Some a /\ sized a (length (rbands r)) ny nx /\
    forall b j i, (b < length (rbands r))%nat -> (j < ny)%nat -> (i < nx)%nat ->
      exists c, pixel a b j i c /\ fst c = value r b (oy + j) (ox + i) /\ (snd c = true <-> missing (rnodata r) (fst c))) /\
  iextent im = Bounds (west_edge r ox) (west_edge r (ox + nx - 1)) (north_edge r (oy + ny - 1)) (north_edge r oy) /\
  ispacing im = (pixel_x (rgt r), pixel_y (rgt r)) /\ itime im = repeat 0 (length (rbands r)) /\ iwkt im = rwkt r /\
  (forall v, ifill im = Some v <-> missing (rnodata r) v).
(** n pixels from o are those that begin at or before w of u pixels *)
Definition counts (u w : R) (o n : nat) : Prop := INR o <= u < INR o + 1 /\ (1 <= n)%nat /\ INR n - 1 <= w < INR n.
