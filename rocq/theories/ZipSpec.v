(** The files of the models in TMD format, by name, and what extracting leaves. *)
From Coq Require Import String Ascii List.
Import ListNotations.
Open Scope string_scope.

(** a word occurs in a name *)
Definition has (w : string) (name : list ascii) : Prop :=
  exists u v, name = (u ++ list_ascii_of_string w ++ v)%list.
(** the grid, elevations, transports and control files *)
Definition tmd_file (name : list ascii) : Prop :=
  has "grid_" name \/ has "h_" name \/ has "h0_" name \/ has "UV_" name \/ has "UV0_" name \/
  has "Model_" name \/ has "xy_" name.

(** [x] is the last element of [l] that satisfies [P] *)
Definition last_such {A} (P : A -> Prop) (l : list A) (x : A) : Prop :=
  exists l1 l2, l = (l1 ++ x :: l2)%list /\ P x /\ forall y, In y l2 -> ~ P y.

(** the Arctic models: name, DOI and directory *)
Definition arctic_models : list (string * string * string) :=
  [("AODTM-5", "10.18739/A2901ZG3N", "aodtm5_tmd"); ("AOTIM-5", "10.18739/A2S17SS80", "aotim5_tmd");
   ("AOTIM-5-2018", "10.18739/A21R6N14K", "Arc5km2018"); ("Arc2kmTM", "10.18739/A2D21RK6K", "Arc2kmTM");
   ("Gr1kmTM", "10.18739/A2B853K18", "Gr1kmTM")].
