(** Vocabulary of the statements about ATLAS netCDF files (C70, C71), independent of the
    functions of the model. *)
From Coq Require Import Reals List Bool Arith ZArith.
From Verif Require Import ExtractModel ExtractSpec AtlasNcModel.
Import ListNotations.
Open Scope R_scope.

(** the nodes and the variable of a file that belong to a tidal variable *)
Inductive nodes_for (g : grid_file) : variable -> nodes -> Prop :=
  | For_z : nodes_for g Vz (fz g)
  | For_u : nodes_for g Vu (fu g)
  | For_U : nodes_for g VU (fu g)
  | For_v : nodes_for g Vv (fv g)
  | For_V : nodes_for g VV (fv g).
Inductive parts_for (f : tide_file) : variable -> option parts -> Prop :=
  | Parts_z : parts_for f Vz (th f)
  | Parts_u : parts_for f Vu (tu f)
  | Parts_U : parts_for f VU (tu f)
  | Parts_v : parts_for f Vv (tv f)
  | Parts_V : parts_for f VV (tv f).

(** the depth of a node of a file, none on land; files have columns first *)
Definition depth_of (n : nodes) (j i : nat) : option R :=
  let h := entry 0 (ndepth n) i j in if Req_EM_T h 0 then None else Some h.
(** the number in a file *)
Definition number_of (p : parts) (j i : nat) : option (R * R) :=
  match entry None (fst p) i j, entry None (snd p) i j with Some a, Some b => Some (a, b) | _, _ => None end.
(** the constant of a node *)
Definition constant_of (n : nodes) (p : parts) (j i : nat) : option (R * R) :=
  match depth_of n j i with Some _ => number_of p j i | None => None end.

(** velocities are transports divided by the depth *)
Definition velocity (t : variable) : bool := match t with Vu | Vv => true | _ => false end.
Definition reported (t : variable) (sc : R) (depth : option R) (z out : option (R * R)) : Prop :=
  match z, depth with
  | Some z, Some d => exists a p, amplitude_phase z a p /\ out = Some ((if velocity t then a / (d / 100) else a) * sc, p)
  | _, _ => out = None
  end.
(** the depth that is returned *)
Definition open_depth (c : option R * bool) : option R := if snd c then None else fst c.

(** nodes on an even grid, all around the globe or not *)
Definition nodes_grid (around : bool) (x0 dx : R) (nx : nat) (y0 dy : R) (ny : nat) (n : nodes) : Prop :=
  evenly x0 dx nx (nlon n) /\ evenly y0 dy ny (nlat n) /\ (2 <= nx)%nat /\ (2 <= ny)%nat /\ rect nx ny (ndepth n) /\
  (around = true /\ INR nx * dx = 360 \/ around = false /\ ~ ExtractSpec.close (INR (nx - 1) * dx) (360 - dx)).
(** a file with values at these nodes *)
Definition file_grid (nx ny : nat) (f : tide_file) (p : parts) : Prop := tny f = ny /\ rect nx ny (fst p) /\ rect nx ny (snd p).
