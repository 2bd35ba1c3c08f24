(** Words used to state what the writers and readers should do (C47). *)
From Coq Require Import String List ZArith Bool.
From Verif Require Import StrBase WriteModel.
Import ListNotations.
Open Scope nat_scope.
Open Scope string_scope.

(** A dictionary without one of its keys. *)
Definition without {A} (k : string) (d : list (string * A)) : list (string * A) :=
  filter (fun q => negb (String.eqb (fst q) k)) d.
Definition proper {A} (d : list (string * A)) : Prop := NoDup (map fst d).

(** The attribute dictionary of each variable is its own and exists. *)
Definition separate (attributes : list (string * nat)) (h : heap) (output : list (string * arr)) (ref : string -> nat) : Prop :=
  (forall k, In k (map fst output) -> get k attributes = Some (ref k) /\ ref k < List.length h /\ proper (nth (ref k) h [])) /\
  (forall j k, In j (map fst output) -> In k (map fst output) -> ref j = ref k -> j = k).

(** What a cell becomes in a file: its value, or the fill value if it is masked. *)
Definition stored (fill : Z) (c : Z * bool) : Z := if snd c then fill else fst c.
(** The fill value of a variable with the given attributes. *)
Definition fill_value (d : dict) : Z := match get "_FillValue" d with Some (ANum x) => x | _ => nc_default end.

(** An array whose values fill its shape. *)
Definition full (a : arr) : Prop := List.length (cells a) = fold_right Nat.mul 1 (shape a).

(** A variable of a file, as its array, its attributes and its fill value say. *)
Definition variable (dims : list string) (a : arr) (d : dict) : ncvar :=
  NcVar dims (get "_FillValue" d) (map (stored (fill_value d)) (cells a)) (without "_FillValue" d).

(** The heap after the fill values of the given dictionaries are gone. *)
Definition stripped (refs : list nat) (h : heap) : heap :=
  map (fun q => if existsb (Nat.eqb (fst q)) refs then without "_FillValue" (snd q) else snd q) (combine (seq 0 (List.length h)) h).

(** Names are matched from their start, whatever their case. *)
Definition starts (p s : string) : Prop := exists t, lower s = (lower p ++ t)%string.
(** The attributes of a file: those of the call over the stamp. *)
Definition over (first second : dict) (all : dict) : Prop :=
  forall k, get k all = match get k first with Some v => Some v | None => get k second end.
(** The attributes for the file itself. *)
Definition root_of (attributes : list (string * nat)) (h : heap) : dict :=
  match get "ROOT" attributes with Some q => nth q h [] | None => [] end.
(** A dataset of an HDF5 file, as its array and attributes say; scalars are left at zero. *)
Definition h5_variable (a : arr) (d : dict) : h5var :=
  H5Var (shape a) (match shape a with [] => [0%Z] | _ => map fst (cells a) end) (without "_FillValue" d).
(** Names that are not data fields. *)
Definition coordinate (k : string) : Prop :=
  In k ["t"; "time"; "lon"; "longitude"; "x"; "lat"; "latitude"; "y"; "crs"; "crs_wkt"; "crs_proj4"; "projection"].

(** The three kinds of dataset; [clean k]: variable [k] has no fill value. *)
Definition drift_data (n : nat) (clean : string -> Prop) (output : list (string * arr)) : Prop :=
  (exists t, In ("time", t) output /\ shape t = [n]) /\
  (forall k a, In (k, a) output -> shape a = [n] \/ (shape a = [] /\ clean k)).
Definition grid_data (ny nx nt : nat) (clean : string -> Prop) (output : list (string * arr)) : Prop :=
  (exists k a, In (k, a) output /\ ~ coordinate k /\ shape a = [ny; nx; nt]) /\
  (forall k a, In (k, a) output -> shape a = [ny; nx; nt] \/ (In (shape a) [[ny; nx]; [ny]; [nx]; [nt]; []] /\ clean k)).
Definition series_data (ns nt : nat) (clean : string -> Prop) (output : list (string * arr)) : Prop :=
  (exists k a, In (k, a) output /\ ~ coordinate k /\ shape a = [ns; nt]) /\
  (forall k a, In (k, a) output -> shape a = [ns; nt] \/ (In (shape a) [[ns]; [nt]; []] /\ clean k)).
Definition dataset (kind : string) (clean : string -> Prop) (output : list (string * arr)) : Prop :=
  (kind = "drift" /\ exists n, drift_data n clean output) \/
  (kind = "grid" /\ exists ny nx nt, grid_data ny nx nt clean output) \/
  (kind = "time series" /\ exists ns nt, series_data ns nt clean output).

(** The same array up to what lies under the mask. *)
Definition same_array (a b : arr) : Prop :=
  shape b = shape a /\ Forall2 (fun x y => snd y = snd x /\ (snd x = false -> fst y = fst x)) (cells a) (cells b).
(** No valid cell holds the fill value, and the fill value is a number. *)
Definition fillable (a : arr) (d : dict) : Prop :=
  (forall x, In (x, false) (cells a) -> x <> fill_value d) /\ (forall v, get "_FillValue" d = Some v -> exists x, v = ANum x).
