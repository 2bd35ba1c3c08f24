(** The combination of global and local ATLAS solutions (pyTMD/io/OTIS.py:
    create_atlas_mask 1498-1566, interpolate_atlas_model 1569-1618,
    combine_atlas_model 1621-1688).

    Simplifications: exact real numbers (floor divisions of multiples of the spacing
    are then exact); the dictionary of local solutions is the list of its values; a
    fancy assignment with repeated indices keeps the last value; fill values of masked
    results are left out. *)
From Coq Require Import Reals List Bool Arith ZArith.
From Verif Require Import PyBase RBase MathModel GeoModel GridModel InterpModel ExtractModel.
Import ListNotations.
Open Scope R_scope.

(** d30 and the numbers of columns and rows *)
Definition d30 : R := 1 / 30.
Definition per : nat := 30.
Definition cols : nat := (360 * per)%nat.
Definition rows : nat := (180 * per)%nat.
(** np.arange(start, stop, d30) with n values *)
Definition arange30 (start : R) (n : nat) : list R := map (fun i => start + INR i * d30) (seq 0 n).
Definition x30 : list R := arange30 (d30 / 2) cols.
Definition y30 : list R := arange30 (-90 + d30 / 2) rows.

(** np.around: halves to even *)
Definition around (x : R) : Z :=
  let f := rfloor x in let r := x - IZR f in
  if rlt r (1 / 2) then f else if rlt (1 / 2) r then (f + 1)%Z else if Z.even f then f else (f + 1)%Z.

(** one axis of the nearest neighbours: lines 1538-1540 *)
Definition nearest (xi : list R) (x : R) : nat :=
  let n1 := INR (length xi - 1) in
  Z.to_nat (around (clamp 0 n1 (n1 * (x - hd 0 xi) / (last xi 0 - hd 0 xi)))).

(** a local solution: lon[0], lat[0] and the variable *)
Record local (V : Type) := Local { llon : R; llat : R; lvar : list (list (gcell V)) }.
Arguments Local {V}. Arguments llon {V}. Arguments llat {V}. Arguments lvar {V}.

(** lines 1550-1562 (and 1671-1684): indices in the global grid of row r and column k
    of a local solution; negative indices count from the end *)
Definition local_start (x : R) : R := IZR (rfloor (x / d30)) * d30.
Definition column_of {V} (l : local V) (k : nat) : Z :=
  let x := local_start (llon l) + INR k * d30 in
  let X := if rle x 0 then x + 360 else x in rfloor ((X - d30 / 2) / d30).
Definition row_of {V} (l : local V) (r : nat) : Z :=
  let y := local_start (llat l) + INR r * d30 in rfloor ((y - (-90 + d30 / 2)) / d30).
(** the unmasked cells in row major order (np.nonzero) *)
Definition number_cells {A} (m : list (list A)) : list (nat * nat * A) :=
  concat (map (fun p => map (fun q => (fst p, fst q, snd q)) (combine (seq 0 (length (snd p))) (snd p))) (combine (seq 0 (length m)) m)).
Definition valid_cells {V} (l : local V) : list (nat * nat * gcell V) :=
  filter (fun c => negb (snd (snd c))) (number_cells (lvar l)).

(** a[j, i] = v *)
Definition set_nth {A} (l : list A) (z : Z) (f : A -> res A) : res (list A) :=
  let n := Z.of_nat (length l) in
  if (Z.leb (- n) z && Z.ltb z n)%bool then
    let k := Z.to_nat (if Z.ltb z 0 then z + n else z) in
    do x <- get1 l k ;; do y <- f x ;; Ok (firstn k l ++ y :: skipn (S k) l)
  else Err IndexError.
Definition assign {A} (m : list (list A)) (j i : Z) (v : A) : res (list (list A)) :=
  set_nth m j (fun row => set_nth row i (fun _ => Ok v)).
Fixpoint assign_all {A} (m : list (list A)) (l : list (Z * Z * A)) : res (list (list A)) :=
  match l with
  | [] => Ok m
  | (j, i, v) :: t => do m' <- assign m j i v ;; assign_all m' t
  end.
Fixpoint fill {A B} (writes : B -> list (Z * Z * A)) (m : list (list A)) (ls : list B) : res (list (list A)) :=
  match ls with
  | [] => Ok m
  | l :: t => do m' <- assign_all m (writes l) ;; fill writes m' t
  end.

(** create_atlas_mask: the values (int8) and the mask where they are zero *)
Definition mask_writes {V} (l : local V) : list (Z * Z * Z) := map (fun c => (row_of l (fst (fst c)), column_of l (snd (fst c)), 1%Z)) (valid_cells l).
Definition create_atlas_mask {V} (xi yi : list R) (mz : list (list Z)) (ls : list (local V)) : res (list (list (Z * bool))) :=
  do base <- mapM (fun y => mapM (fun x => do row <- get1 mz (nearest yi y) ;; get1 row (nearest xi x)) x30) y30 ;;
  do m30 <- fill mask_writes base ls ;;
  Ok (map (map (fun z => (z, Z.eqb z 0))) m30).

(** interpolate_atlas_model and combine_atlas_model for one real component *)
Definition interpolate_atlas (xi yi : list R) (zi : list (list (gcell R))) : res (list (list (option R))) :=
  mapM (fun y => mapM (fun x => do c <- rspline xi yi zi (x, y) ;; Ok (fst c)) x30) y30.
Definition value_writes (l : local R) : list (Z * Z * option R) := map (fun c => (row_of l (fst (fst c)), column_of l (snd (fst c)), fst (snd c))) (valid_cells l).
Definition combine_atlas_model (xi yi : list R) (zi : list (list (gcell R))) (ls : list (local R)) : res (list (list (option R))) :=
  do base <- interpolate_atlas xi yi zi ;; fill value_writes base ls.
