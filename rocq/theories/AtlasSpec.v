(** Layout of compact ATLAS files, written down independently of the readers:
    Fortran sequential records, a global solution followed by local solutions. *)
From Coq Require Import ZArith List Bool.
From Verif Require Import OtisModel.
Import ListNotations.
Open Scope Z_scope.

(** a sequential record: length, payload, length *)
Definition frec (b : list Z) : list Z := be 4 (Z.of_nat (length b)) ++ b ++ be 4 (Z.of_nat (length b)).
Definition nums (l : list Z) : list Z := flat_map (be 4) l.
Definition pairs (l : list (Z * Z)) : list Z := nums (flat_map (fun p => [fst p; snd p]) l).
Definition two (p : Z * Z) : list Z := nums [fst p; snd p].

(** local elevations: size, limits, constituents, name (20 bytes), one-based grid
    positions (i, j) of the valid nodes, one list of complex values per constituent *)
Record zlocal : Type := ZLocal {
  z_nx : nat; z_ny : nat; z_lat : Z * Z; z_lon : Z * Z; z_cons : list (list Z); z_name : list Z;
  z_pts : list (Z * Z); z_data : list (list (Z * Z)) }.
Definition zlocal_bytes (L : zlocal) : list Z :=
  frec (nums [Z.of_nat (z_nx L); Z.of_nat (z_ny L); Z.of_nat (length (z_cons L)); Z.of_nat (length (z_pts L))]
        ++ two (z_lat L) ++ two (z_lon L) ++ flat_map ljust4 (z_cons L) ++ z_name L)
  ++ frec (nums (map fst (z_pts L)) ++ nums (map snd (z_pts L)))
  ++ flat_map (fun d => frec (pairs d)) (z_data L).
(** local transports: separate nodes and values for both components *)
Record uvlocal : Type := UVLocal {
  t_nx : nat; t_ny : nat; t_lat : Z * Z; t_lon : Z * Z; t_cons : list (list Z); t_name : list Z;
  t_upts : list (Z * Z); t_vpts : list (Z * Z); t_data : list (list (Z * Z) * list (Z * Z)) }.
Definition uvlocal_bytes (L : uvlocal) : list Z :=
  frec (nums [Z.of_nat (t_nx L); Z.of_nat (t_ny L); Z.of_nat (length (t_cons L)); Z.of_nat (length (t_upts L)); Z.of_nat (length (t_vpts L))]
        ++ two (t_lat L) ++ two (t_lon L) ++ flat_map ljust4 (t_cons L) ++ t_name L)
  ++ frec (nums (map fst (t_upts L)) ++ nums (map snd (t_upts L)))
  ++ frec (nums (map fst (t_vpts L)) ++ nums (map snd (t_vpts L)))
  ++ flat_map (fun d => frec (pairs (fst d)) ++ frec (pairs (snd d))) (t_data L).
(** local bathymetry *)
Record glocal : Type := GLocal { b_nx : nat; b_ny : nat; b_lat : Z * Z; b_lon : Z * Z; b_name : list Z; b_pts : list (Z * Z); b_depth : list Z }.
Definition glocal_bytes (L : glocal) : list Z :=
  frec (nums [Z.of_nat (b_nx L); Z.of_nat (b_ny L); Z.of_nat (length (b_pts L))] ++ two (b_lat L) ++ two (b_lon L) ++ b_name L)
  ++ frec (nums (map fst (b_pts L)) ++ nums (map snd (b_pts L)))
  ++ frec (nums (b_depth L)).

(** the whole elevation file: [h] the global solution, [names] its constituents *)
Definition zfile (h : arr3) (xlim ylim : Z * Z) (names : list (list Z)) (locals : list zlocal) : list Z :=
  frec (nums [Z.of_nat (nx3 h); Z.of_nat (ny3 h); Z.of_nat (nc3 h)] ++ two ylim ++ two xlim ++ flat_map ljust4 names)
  ++ flat_map (fun ic => frec (flat_map (fun m => pairs (map (fun i => at3 h m i ic) (seq 0 (nx3 h)))) (seq 0 (ny3 h)))) (seq 0 (nc3 h))
  ++ flat_map zlocal_bytes locals.
Definition uvfile (u v : arr3) (xlim ylim : Z * Z) (names : list (list Z)) (locals : list uvlocal) : list Z :=
  frec (nums [Z.of_nat (nx3 u); Z.of_nat (ny3 u); Z.of_nat (nc3 u)] ++ two ylim ++ two xlim ++ flat_map ljust4 names)
  ++ flat_map (fun ic => frec (flat_map (fun m => nums (flat_map (fun i => [fst (at3 u m i ic); snd (at3 u m i ic); fst (at3 v m i ic); snd (at3 v m i ic)]) (seq 0 (nx3 u)))) (seq 0 (ny3 u)))) (seq 0 (nc3 u))
  ++ flat_map uvlocal_bytes locals.
(** the grid file: depth, mask and provenance mask of the global grid *)
Definition gfile (hz mz pm : arr2) (xlim ylim : Z * Z) (dt : Z) (iob : list (Z * Z)) (locals : list glocal) : list Z :=
  frec (nums [Z.of_nat (nx2 hz); Z.of_nat (ny2 hz)] ++ two ylim ++ two xlim ++ nums [dt; Z.of_nat (length iob)])
  ++ frec (match iob with [] => be 4 0 | _ => pairs iob end)
  ++ frec (nums (all2 hz)) ++ frec (nums (all2 mz)) ++ frec (nums (all2 pm))
  ++ flat_map glocal_bytes locals.

(** [loc] is the (ny, nx) array holding values [xs] at the one-based positions [pts]
    and masked elsewhere *)
Definition holds {A} (loc : local A) (nx ny : nat) (lon lat : Z * Z) (pts : list (Z * Z)) (xs : list A) : Prop :=
  l_nx loc = Z.of_nat nx /\ l_ny loc = Z.of_nat ny /\ l_lon loc = [fst lon; snd lon] /\ l_lat loc = [fst lat; snd lat]
  /\ (forall n i j, nth_error pts n = Some (i, j) -> l_at loc (j - 1) (i - 1) = nth_error xs n)
  /\ (forall j i, ~ In (i + 1, j + 1) pts -> l_at loc j i = None).
