(** Vocabulary of C81: the layout of OTIS files (Fortran records of big-endian 32-bit
    words) and the value of a single-precision number. *)
From Coq Require Import String Ascii Reals ZArith List Bool.
Import ListNotations.
Open Scope Z_scope.
Open Scope list_scope.

(** the four bytes of a word, most significant first (negative integers in two's
    complement) *)
Definition octets (w : Z) : list Z := [w / 2 ^ 24 mod 256; w / 2 ^ 16 mod 256; w / 2 ^ 8 mod 256; w mod 256].
Definition octets_of (ws : list Z) : list Z := flat_map octets ws.
(** a record: its contents between its length in bytes and the same length *)
Definition fortran (b : list Z) : list Z := octets (Z.of_nat (List.length b)) ++ b ++ octets (Z.of_nat (List.length b)).
(** the words of all nodes, row by row from the south and west *)
Definition by_rows (ny nx : nat) (f : nat -> nat -> list Z) : list Z := flat_map (fun j => flat_map (f j) (seq 0 nx)) (seq 0 ny).

(** what a grid file holds: limits, time step and depths are single-precision patterns *)
Record survey := Survey {
  s_nx : nat; s_ny : nat; s_xlim : Z * Z; s_ylim : Z * Z; s_dt : Z;
  s_depth : nat -> nat -> Z; s_mask : nat -> nat -> Z; s_open : list (Z * Z) }.
Definition grid_bytes (s : survey) : list Z :=
  fortran (octets_of [Z.of_nat (s_nx s); Z.of_nat (s_ny s); fst (s_ylim s); snd (s_ylim s); fst (s_xlim s); snd (s_xlim s); s_dt s; Z.of_nat (List.length (s_open s))])
  ++ fortran (octets_of (match s_open s with [] => [0] | l => flat_map (fun p => [fst p; snd p]) l end))
  ++ fortran (octets_of (by_rows (s_ny s) (s_nx s) (fun j i => [s_depth s j i])))
  ++ fortran (octets_of (by_rows (s_ny s) (s_nx s) (fun j i => [s_mask s j i]))).

(** names in four characters, padded with blanks *)
Definition characters (c : string) : list Z := map (fun a => Z.of_N (N_of_ascii a)) (list_ascii_of_string c).
Definition four (c : string) : list Z := firstn 4 (characters c ++ [32; 32; 32; 32]).
Definition heading (s : survey) (names : list string) : list Z :=
  fortran (octets_of [Z.of_nat (s_nx s); Z.of_nat (s_ny s); Z.of_nat (List.length names); fst (s_ylim s); snd (s_ylim s); fst (s_xlim s); snd (s_xlim s)] ++ flat_map four names).
(** heights: a record for each constituent with the real and imaginary part of each node *)
Definition height_bytes (s : survey) (names : list string) (h : nat -> nat -> nat -> Z * Z) : list Z :=
  heading s names ++ flat_map (fun c => fortran (octets_of (by_rows (s_ny s) (s_nx s) (fun j i => [fst (h c j i); snd (h c j i)])))) (seq 0 (List.length names)).
(** transports: the zonal and the meridional one of each node *)
Definition transport_bytes (s : survey) (names : list string) (u v : nat -> nat -> nat -> Z * Z) : list Z :=
  heading s names ++ flat_map (fun c => fortran (octets_of (by_rows (s_ny s) (s_nx s)
    (fun j i => [fst (u c j i); snd (u c j i); fst (v c j i); snd (v c j i)])))) (seq 0 (List.length names)).

(** the value of a pattern: a sign, an exponent of eight bits and a fraction of 23 bits;
    None for infinities and nan *)
Definition single (x : Z) : option R :=
  let s := x / 2 ^ 31 in let e := x / 2 ^ 23 mod 2 ^ 8 in let m := x mod 2 ^ 23 in
  let sign := if s =? 0 then 1%R else (-1)%R in
  if e =? 255 then None
  else if e =? 0 then Some (sign * (IZR m / 2 ^ 23) * powerRZ 2 (-126))%R
  else Some (sign * (1 + IZR m / 2 ^ 23) * powerRZ 2 (e - 127))%R.
Definition pair_of (p : Z * Z) : option (R * R) :=
  match single (fst p), single (snd p) with Some a, Some b => Some (a, b) | _, _ => None end.

(** the numbers fit: patterns of 32 bits, integers and lengths of records of 31 bits *)
Definition bits32 (x : Z) : Prop := 0 <= x < 2 ^ 32.
Definition integer32 (x : Z) : Prop := - 2 ^ 31 <= x < 2 ^ 31.
Definition storable (s : survey) (nc : nat) : Prop :=
  bits32 (fst (s_xlim s)) /\ bits32 (snd (s_xlim s)) /\ bits32 (fst (s_ylim s)) /\ bits32 (snd (s_ylim s)) /\ bits32 (s_dt s) /\
  (forall j i, bits32 (s_depth s j i)) /\ (forall j i, integer32 (s_mask s j i)) /\
  Forall (fun p => integer32 (fst p) /\ integer32 (snd p)) (s_open s) /\ 8 * Z.of_nat (List.length (s_open s)) < 2 ^ 31 /\
  16 * Z.of_nat (s_nx s) * Z.of_nat (s_ny s) < 2 ^ 31 /\ 28 + 4 * Z.of_nat nc < 2 ^ 31 /\ (0 < s_nx s)%nat /\ (0 < s_ny s)%nat.
Definition patterns3 (h : nat -> nat -> nat -> Z * Z) : Prop := forall c j i, bits32 (fst (h c j i)) /\ bits32 (snd (h c j i)).
(** names that can be told apart: printable characters, at most three of them except in
    the last name, which may have four *)
Definition printable (a : ascii) : Prop := (33 <= N_of_ascii a <= 126)%N.
Definition plain (c : string) : Prop := c <> EmptyString /\ Forall printable (list_ascii_of_string c).
Definition legible (names : list string) : Prop :=
  (forall c, In c names -> plain c /\ (String.length c <= 4)%nat) /\ forall c, In c (removelast names) -> (String.length c <= 3)%nat.

(** the limits and the time step; western limits become positive if both are negative
    and the grid is in longitude and latitude (positive time step) *)
Open Scope R_scope.
Definition bounded (s : survey) (xa xb ya yb dt : R) : Prop :=
  single (fst (s_xlim s)) = Some xa /\ single (snd (s_xlim s)) = Some xb /\ single (fst (s_ylim s)) = Some ya /\ single (snd (s_ylim s)) = Some yb /\
  single (s_dt s) = Some dt /\ xa < xb /\ ya < yb.
Definition first_centre (xa xb dt : R) (nx : nat) : R :=
  (if Rlt_dec xa 0 then if Rlt_dec xb 0 then if Rlt_dec 0 dt then xa + 360 else xa else xa else xa) + (xb - xa) / INR nx / 2.
(** the grid goes around the globe, or does not and is not mistaken for one that does *)
Definition extent (geo around : bool) (xa xb : R) (nx : nat) : Prop :=
  around = true /\ geo = true /\ xb - xa = 360 \/
  around = false /\ (geo = false \/ ~ Rabs (INR (nx - 1) * ((xb - xa) / INR nx) - (360 - (xb - xa) / INR nx)) <= 1e-8 + 1e-5 * Rabs (360 - (xb - xa) / INR nx)).

(** ** The constituents: heights, or zonal and meridional transports *)
Inductive tides := Elevations (h : nat -> nat -> nat -> Z * Z) | Transports (u v : nat -> nat -> nat -> Z * Z).
Definition bytes_of (s : survey) (names : list string) (td : tides) : list Z :=
  match td with Elevations h => height_bytes s names h | Transports u v => transport_bytes s names u v end.
Definition stored_patterns (td : tides) : Prop := match td with Elevations h => patterns3 h | Transports u v => patterns3 u /\ patterns3 v end.
(** constituent c alone *)
Definition only (c : nat) (td : tides) : tides :=
  match td with Elevations h => Elevations (fun _ => h c) | Transports u v => Transports (fun _ => u c) (fun _ => v c) end.
