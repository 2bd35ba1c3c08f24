(** Binary OTIS and compact ATLAS files (pyTMD/io/OTIS.py).

    A file is a list of bytes (integers in 0..255).  32-bit floats are their bit
    patterns (integers in 0 .. 2^32 - 1): reading and writing never compute with
    them, except for the test for nan.  Conversions of other float types to 32 bits
    on assignment are numpy's and not modelled.  Arrays are functions of their
    indices with an explicit shape. *)
From Coq Require Import ZArith List Bool Lia.
From Verif Require Import PyBase.
Import ListNotations.
Open Scope Z_scope.

Notation bytes := (list Z) (only parsing).

(** * Numbers in files *)
Definition byte_of (k w : Z) : Z := (w / 256 ^ k) mod 256.
(** big endian bytes of a [width]-byte number (two's complement) *)
Fixpoint be (width : nat) (w : Z) : bytes :=
  match width with O => [] | S n => byte_of (Z.of_nat n) w :: be n w end.
Fixpoint un_be (b : bytes) : Z :=
  match b with [] => 0 | x :: t => x * 256 ^ Z.of_nat (length t) + un_be t end.
Definition signed32 (w : Z) : Z := if w <? 2 ^ 31 then w else w - 2 ^ 32.

(** struct.pack('>i', n): struct.error outside the range of 32-bit integers *)
Definition pack_i (n : Z) : res bytes :=
  if (- 2 ^ 31 <=? n) && (n <? 2 ^ 31) then Ok (be 4 n) else Err OtherError.
(** struct.pack('>f', x), given the 32-bit pattern of x *)
Definition pack_f (x : Z) : bytes := be 4 x.

(** ndarray.tofile(fid, format=...): with the default sep the raw memory of the
    array is written in the array's own dtype; [format] is for text output only and
    ignored.  [wide] is the itemsize, [big] the byte order. *)
Record dtype : Type := DT { wide : nat; big : bool }.
Definition f4be : dtype := DT 4 true.
Definition store (d : dtype) (x : Z) : bytes := if big d then be (wide d) x else rev (be (wide d) x).
Definition tofile (d : dtype) (items : list Z) : bytes := flat_map (store d) items.

(** * Reading: the file and the position *)
Definition reader (A : Type) : Type := bytes -> Z -> res (A * Z).
Definition rret {A} (a : A) : reader A := fun _ p => Ok (a, p).
Definition rerr {A} (e : exn) : reader A := fun _ _ => Err e.
Definition rbind {A B} (m : reader A) (k : A -> reader B) : reader B :=
  fun f p => match m f p with Ok (a, q) => k a f q | Err e => Err e end.
Notation "'rd' x <- r ;; k" := (rbind r (fun x => k)) (at level 200, x name, r at level 100, k at level 200).
Notation "r ;;; k" := (rbind r (fun _ => k)) (at level 100, right associativity, k at level 200).

(** fid.seek(n, 1) *)
Definition seek (n : Z) : reader unit := fun _ p => if p + n <? 0 then Err OtherError else Ok (tt, p + n).
(** fid.read(n) *)
Definition rest (f : bytes) (p : Z) : bytes := skipn (Z.to_nat p) f.
Definition read (n : Z) : reader bytes :=
  fun f p => let b := firstn (Z.to_nat n) (rest f p) in Ok (b, p + Z.of_nat (length b)).
(** np.fromfile(fid, dtype with 4 bytes, count): at most the complete items left *)
Fixpoint words (n : nat) (b : bytes) : list bytes :=
  match n, b with
  | S n, a :: b :: c :: d :: t => [a; b; c; d] :: words n t
  | _, _ => []
  end.
Definition fromfile (n : Z) : reader (list Z) :=
  fun f p => let ws := words (Z.to_nat n) (rest f p) in Ok (map un_be ws, p + 4 * Z.of_nat (length ws)).
Definition f4s (n : Z) : reader (list Z) := fromfile n.
Definition i4s (n : Z) : reader (list Z) := rd l <- fromfile n ;; rret (map signed32 l).
(** x, = np.fromfile(..., count=1) *)
Definition i4 : reader Z := rd l <- i4s 1 ;; match l with [x] => rret x | _ => rerr ValueError end.
Definition f4 : reader Z := rd l <- f4s 1 ;; match l with [x] => rret x | _ => rerr ValueError end.
Definition i4x3 : reader (Z * Z * Z) := rd l <- i4s 3 ;; match l with [x; y; z] => rret (x, y, z) | _ => rerr ValueError end.
Fixpoint rloop {A} (n : nat) (m : reader A) : reader (list A) :=
  match n with O => rret [] | S n => rd a <- m ;; rd l <- rloop n m ;; rret (a :: l) end.
Definition run {A} (m : reader A) (f : bytes) : res A := match m f 0 with Ok (a, _) => Ok a | Err e => Err e end.

(** l[o::k] *)
Fixpoint every (k o : nat) (l : list Z) : list Z :=
  match l with [] => [] | x :: t => match o with O => x :: every k (pred k) t | S o => every k o t end end.
(** a[i,:] = l for a row of n entries (a single entry is broadcast) *)
Definition assign (n : Z) (l : list Z) : res (list Z) :=
  if Z.of_nat (length l) =? n then Ok l
  else match l with [x] => Ok (repeat x (Z.to_nat n)) | _ => Err ValueError end.
Definition rlift {A} (r : res A) : reader A := fun _ p => match r with Ok a => Ok (a, p) | Err e => Err e end.
(** np.fromfile(count=n).reshape(ny, nx) *)
Fixpoint chunks (n : nat) (m : nat) (l : list Z) : list (list Z) :=
  match m with O => [] | S m => firstn n l :: chunks n m (skipn n l) end.
Definition reshape (ny nx : Z) (l : list Z) : res (list (list Z)) :=
  if (0 <=? ny) && (0 <=? nx) && (Z.of_nat (length l) =? ny * nx) then Ok (chunks (Z.to_nat nx) (Z.to_nat ny) l) else Err ValueError.
Definition shape_ok (ny nx : Z) : res unit := if (0 <=? ny) && (0 <=? nx) then Ok tt else Err ValueError.

(** complex64 entries and nan *)
Definition isnan32 (x : Z) : bool := ((x / 2 ^ 23) mod 256 =? 255) && negb (x mod 2 ^ 23 =? 0).
Record entry : Type := Entry { re : Z; im : Z; masked : bool }.
(** default fill value of complex arrays: 1e20+0j in 32 bits *)
Definition fill_re : Z := 1621981420.
(** OTIS.py:1210-1213: mask nan entries and replace them by the fill value *)
Definition clean (c : Z * Z) : entry :=
  if isnan32 (fst c) || isnan32 (snd c) then Entry fill_re 0 true else Entry (fst c) (snd c) false.

(** * Grid files *)
(** two-dimensional array of patterns *)
Record arr2 : Type := Arr2 { ny2 : nat; nx2 : nat; dt2 : dtype; at2 : nat -> nat -> Z }.
Definition row2 (a : arr2) (m : nat) : list Z := map (at2 a m) (seq 0 (nx2 a)).
Definition all2 (a : arr2) : list Z := flat_map (row2 a) (seq 0 (ny2 a)).
(** OTIS.py:1746-1811 output_otis_grid; [lims] is the dtype of both limits, [iob] the
    rows of the open boundary array *)
Definition output_otis_grid (lims : dtype) (xlim ylim : Z * Z) (hz mz : arr2) (iobt : dtype) (iob : list (Z * Z)) (dt : Z) : res bytes :=
  let nob := Z.of_nat (length iob) in
  let nx := Z.of_nat (nx2 hz) in let ny := Z.of_nat (ny2 hz) in
  do r1 <- pack_i 32 ;; do bx <- pack_i nx ;; do by_ <- pack_i ny ;; do bn <- pack_i nob ;;
  do open <- (if nob =? 0 then do b4 <- pack_i 4 ;; do b0 <- pack_i 0 ;; Ok (b4 ++ b0 ++ b4)
              else do b <- pack_i (8 * nob) ;; Ok (b ++ tofile iobt (flat_map (fun p => [fst p; snd p]) iob) ++ b)) ;;
  do r2 <- pack_i (4 * nx * ny) ;;
  Ok (r1 ++ bx ++ by_ ++ tofile lims [fst ylim; snd ylim] ++ tofile lims [fst xlim; snd xlim] ++ pack_f dt ++ bn ++ r1 ++ open
      ++ r2 ++ tofile (dt2 hz) (all2 hz)
      ++ flat_map (fun m => tofile (dt2 hz) (row2 hz m)) (seq 0 (ny2 hz)) ++ r2 ++ r2
      ++ flat_map (fun m => tofile (dt2 mz) (row2 mz m)) (seq 0 (ny2 hz)) ++ r2).

Record otis_grid : Type := OtisGrid {
  g_nx : Z; g_ny : Z; g_ylim : list Z; g_xlim : list Z; g_dt : Z;
  g_iob : list (list Z); g_hz : list (list Z); g_mz : list (list Z) }.
(** OTIS.py:957-967 (and 1031-1041): open boundary nodes *)
Definition read_iob : reader (list (list Z)) :=
  rd nob <- i4 ;;
  if nob =? 0 then seek 20 ;;; rret []
  else seek 8 ;;; rd l <- i4s (2 * nob) ;; rd r <- rlift (reshape nob 2 l) ;; seek 8 ;;; rret r.
Definition read_plane (ny nx : Z) (int : bool) : reader (list (list Z)) :=
  rd l <- (if int then i4s (nx * ny) else f4s (nx * ny)) ;; rlift (reshape ny nx l).
(** OTIS.py:914-975 read_otis_grid, up to the coordinates (below); the 32-bit product
    nx*ny is taken without overflow *)
Definition read_otis_grid : reader otis_grid :=
  seek 4 ;;; rd nx <- i4 ;; rd ny <- i4 ;; rd ylim <- f4s 2 ;; rd xlim <- f4s 2 ;; rd dt <- f4 ;;
  rd iob <- read_iob ;;
  rd hz <- read_plane ny nx false ;; seek 8 ;;; rd mz <- read_plane ny nx true ;;
  rret (OtisGrid nx ny ylim xlim dt iob hz mz).

(** * Elevation and transport files *)
(** complex array of shape (ny, nx, nc): pattern of the real and imaginary parts *)
Record arr3 : Type := Arr3 { ny3 : nat; nx3 : nat; nc3 : nat; at3 : nat -> nat -> nat -> Z * Z }.
(** str.ljust(4) *)
Definition ljust4 (c : bytes) : bytes := c ++ repeat 32 (4 - length c).
Definition interleave2 (l : list (Z * Z)) : list Z := flat_map (fun p => [fst p; snd p]) l.
(** OTIS.py:1843-1851: header *)
Definition header (nx ny nc : nat) (lims : dtype) (xlim ylim : Z * Z) (names : list bytes) : res bytes :=
  do ll <- pack_i (4 * (7 + Z.of_nat nc)) ;; do bx <- pack_i (Z.of_nat nx) ;; do by_ <- pack_i (Z.of_nat ny) ;; do bc <- pack_i (Z.of_nat nc) ;;
  Ok (ll ++ bx ++ by_ ++ bc ++ tofile lims [fst ylim; snd ylim] ++ tofile lims [fst xlim; snd xlim] ++ flat_map ljust4 names ++ ll).
(** OTIS.py:1814-1864 output_otis_elevation; the names are given as their UTF-8 bytes *)
Definition output_otis_elevation (h : arr3) (lims : dtype) (xlim ylim : Z * Z) (names : list bytes) : res bytes :=
  do hd <- header (nx3 h) (ny3 h) (nc3 h) lims xlim ylim names ;;
  do rl <- (if (nc3 h =? 0)%nat then Ok [] else pack_i (8 * Z.of_nat (nx3 h) * Z.of_nat (ny3 h))) ;;
  Ok (hd ++ flat_map (fun ic => rl ++
        flat_map (fun m => tofile f4be (interleave2 (map (fun i => at3 h m i ic) (seq 0 (nx3 h))))) (seq 0 (ny3 h)) ++ rl) (seq 0 (nc3 h))).
(** OTIS.py:1867-1922 output_otis_transport *)
Definition output_otis_transport (u v : arr3) (lims : dtype) (xlim ylim : Z * Z) (names : list bytes) : res bytes :=
  do hd <- header (nx3 u) (ny3 u) (nc3 u) lims xlim ylim names ;;
  do rl <- (if (nc3 u =? 0)%nat then Ok [] else pack_i (2 * 8 * Z.of_nat (nx3 u) * Z.of_nat (ny3 u))) ;;
  Ok (hd ++ flat_map (fun ic => rl ++
        flat_map (fun m => tofile f4be (flat_map (fun i => [fst (at3 u m i ic); snd (at3 u m i ic); fst (at3 v m i ic); snd (at3 v m i ic)]) (seq 0 (nx3 u)))) (seq 0 (ny3 u)) ++ rl) (seq 0 (nc3 u))).

(** OTIS.py:1195-1217 read_otis_elevation *)
Definition read_row2 (nx : Z) : reader (list (Z * Z)) :=
  rd t <- f4s (2 * nx) ;; rd a <- rlift (assign nx (every 2 0 t)) ;; rd b <- rlift (assign nx (every 2 1 t)) ;; rret (combine a b).
Definition read_otis_elevation (ic : nat) : reader (list (list entry)) :=
  rd ll <- i4 ;; rd s <- i4x3 ;;
  let nx := fst (fst s) in let ny := snd (fst s) in
  f4s 2 ;;; f4s 2 ;;;
  seek (Z.of_nat ic * (nx * ny * 8 + 8) + 8 + ll - 28) ;;;
  rlift (shape_ok ny nx) ;;;
  rd rows <- rloop (Z.to_nat ny) (read_row2 nx) ;;
  rret (map (map clean) rows).
(** OTIS.py:1344-1374 read_otis_transport *)
Definition read_row4 (nx : Z) : reader (list ((Z * Z) * (Z * Z))) :=
  rd t <- f4s (4 * nx) ;;
  rd a <- rlift (assign nx (every 4 0 t)) ;; rd b <- rlift (assign nx (every 4 1 t)) ;;
  rd c <- rlift (assign nx (every 4 2 t)) ;; rd d <- rlift (assign nx (every 4 3 t)) ;;
  rret (combine (combine a b) (combine c d)).
Definition read_otis_transport (ic : nat) : reader (list (list entry) * list (list entry)) :=
  rd ll <- i4 ;; rd s <- i4x3 ;;
  let nx := fst (fst s) in let ny := snd (fst s) in
  f4s 2 ;;; f4s 2 ;;;
  seek (Z.of_nat ic * (nx * ny * 16 + 8) + 8 + ll - 28) ;;;
  rlift (shape_ok ny nx) ;;;
  rd rows <- rloop (Z.to_nat ny) (read_row4 nx) ;;
  rret (map (map (fun p => clean (fst p))) rows, map (map (fun p => clean (snd p))) rows).

(** * Names *)
(** bytes.split(): maximal runs of non-blank bytes *)
Definition blank (c : Z) : bool := (c =? 32) || ((9 <=? c) && (c <=? 13)).
Fixpoint split_go (cur : bytes) (b : bytes) : list bytes :=
  match b with
  | [] => match cur with [] => [] | _ => [rev cur] end
  | c :: t => if blank c then match cur with [] => split_go [] t | _ => rev cur :: split_go [] t end
              else split_go (c :: cur) t
  end.
Definition split (b : bytes) : list bytes := split_go [] b.
(** bytes.strip() *)
Fixpoint lstrip (b : bytes) : bytes := match b with [] => [] | c :: t => if blank c then lstrip t else b end.
Definition strip (b : bytes) : bytes := rev (lstrip (rev (lstrip b))).
(** OTIS.py:1161-1169 read_constituents (OTIS and ATLAS); decode and rstrip do nothing
    to ASCII words *)
Definition read_constituents : reader (list bytes * Z) :=
  i4 ;;; rd s <- i4x3 ;; let nc := snd s in seek 16 ;;; rd b <- read (nc * 4) ;; rret (split b, nc).

(** * Compact ATLAS files *)
Definition bytes_eqb (a b : bytes) : bool := if list_eq_dec Z.eq_dec a b then true else false.
Definition size (f : bytes) : Z := Z.of_nat (length f).
Definition tell : reader Z := fun _ p => Ok (p, p).
Definition fsize : reader Z := fun f p => Ok (size f, p).
(** a[jz-1, iz-1] = values on an (ny, nx) array: python index rule, IndexError out of
    range, later values win, ValueError for a wrong number of values *)
Definition norm_index (n i : Z) : res Z :=
  if (0 <=? i) && (i <? n) then Ok i else if (- n <=? i) && (i <? 0) then Ok (i + n) else Err IndexError.
Definition set_at {A} (jj ii : Z) (x : A) (a : Z -> Z -> option A) : Z -> Z -> option A :=
  fun j i => if (j =? jj) && (i =? ii) then Some x else a j i.
Fixpoint scatter {A} (ny nx : Z) (jz iz : list Z) (xs : list A) (a : Z -> Z -> option A) : res (Z -> Z -> option A) :=
  match jz, iz, xs with
  | j :: jz, i :: iz, x :: xs =>
      do jj <- norm_index ny (j - 1) ;; do ii <- norm_index nx (i - 1) ;; scatter ny nx jz iz xs (set_at jj ii x a)
  | [], [], [] => Ok a
  | _, _, _ => Err ValueError
  end.
(** a local solution: limits and a partially filled (ny, nx) array (None: masked) *)
Record local (A : Type) : Type := Local { l_ny : Z; l_nx : Z; l_lon : list Z; l_lat : list Z; l_at : Z -> Z -> option A }.
Arguments Local {A}. Arguments l_ny {A}. Arguments l_nx {A}. Arguments l_lon {A}. Arguments l_lat {A}. Arguments l_at {A}.
(** python dictionaries by name, in insertion order *)
Fixpoint dict_set {A} (d : list (bytes * A)) (k : bytes) (x : A) : list (bytes * A) :=
  match d with [] => [(k, x)] | (k', y) :: t => if bytes_eqb k k' then (k, x) :: t else (k', y) :: dict_set t k x end.
Definition indices_of (c : bytes) (l : list bytes) : list nat :=
  map fst (filter (fun p => bytes_eqb (snd p) c) (combine (seq 0 (length l)) l)).
(** [while fid.tell() < st_size]: [fuel] bounds the number of iterations *)
Fixpoint while_more {A} (fuel : nat) (body : A -> reader A) (a : A) : reader A :=
  match fuel with
  | O => rerr OtherError
  | S n => rd p <- tell ;; rd sz <- fsize ;; if p <? sz then rd b <- body a ;; while_more n body b else rret a
  end.

(** OTIS.py:1276-1314: one local solution of an elevation file *)
Definition atlas_z_body (con : bytes) (d : list (bytes * local (Z * Z))) : reader (list (bytes * local (Z * Z))) :=
  seek 4 ;;; rd nx1 <- i4 ;; rd ny1 <- i4 ;; rd nc1 <- i4 ;; rd nz <- i4 ;;
  rd lt1 <- f4s 2 ;; rd ln1 <- f4s 2 ;;
  rd b <- read (nc1 * 4) ;; let cons := split (strip b) in
  match indices_of con cons with
  | [] => seek (40 + 16 * nz + (nc1 - 1) * (8 * nz + 8)) ;;; rret d
  | [ic1] =>
      rd nm <- read 20 ;; seek 8 ;;; rd iz <- i4s nz ;; rd jz <- i4s nz ;;
      seek (8 + Z.of_nat ic1 * (8 * nz + 8)) ;;;
      rlift (shape_ok ny1 nx1) ;;;
      rd t <- f4s (2 * nz) ;;
      rd a <- rlift (scatter ny1 nx1 jz iz (combine (every 2 0 t) (every 2 1 t)) (fun _ _ => None)) ;;
      seek ((nc1 - Z.of_nat ic1 - 1) * (8 * nz + 8) + 4) ;;;
      rret (dict_set d (strip nm) (Local ny1 nx1 ln1 lt1 a))
  | _ => rerr ValueError
  end.
(** OTIS.py:1249-1318 read_atlas_elevation (no nan masking of the global field) *)
Definition read_atlas_elevation (ic : nat) (con : bytes) : reader (list (list (Z * Z)) * list (bytes * local (Z * Z))) :=
  i4 ;;; rd s <- i4x3 ;;
  let nx := fst (fst s) in let ny := snd (fst s) in let nc := snd s in
  f4s 2 ;;; f4s 2 ;;;
  seek (8 + nc * 4 + Z.of_nat ic * (nx * ny * 8 + 8)) ;;;
  rlift (shape_ok ny nx) ;;;
  rd rows <- rloop (Z.to_nat ny) (read_row2 nx) ;;
  seek ((nc - Z.of_nat ic - 1) * (nx * ny * 8 + 8) + 4) ;;;
  rd sz <- fsize ;;
  rd d <- while_more (S (Z.to_nat sz)) (atlas_z_body con) [] ;;
  rret (rows, d).

(** OTIS.py:1437-1489: one local solution of a transport file *)
Definition atlas_uv_body (con : bytes) (d : list (bytes * (local (Z * Z) * local (Z * Z)))) : reader (list (bytes * (local (Z * Z) * local (Z * Z)))) :=
  seek 4 ;;; rd nx1 <- i4 ;; rd ny1 <- i4 ;; rd nc1 <- i4 ;; rd nu <- i4 ;; rd nv <- i4 ;;
  rd lt1 <- f4s 2 ;; rd ln1 <- f4s 2 ;;
  rd b <- read (nc1 * 4) ;; let cons := split (strip b) in
  match indices_of con cons with
  | [] => seek (56 + 16 * nu + 16 * nv + (nc1 - 1) * (8 * nu + 8 * nv + 16)) ;;; rret d
  | [ic1] =>
      rd nm <- read 20 ;; seek 8 ;;; rd iu <- i4s nu ;; rd ju <- i4s nu ;; seek 8 ;;; rd iv <- i4s nv ;; rd jv <- i4s nv ;;
      seek (8 + Z.of_nat ic1 * (8 * nu + 8 * nv + 16)) ;;;
      rlift (shape_ok ny1 nx1) ;;;
      rd t <- f4s (2 * nu) ;;
      rd a <- rlift (scatter ny1 nx1 ju iu (combine (every 2 0 t) (every 2 1 t)) (fun _ _ => None)) ;;
      seek 8 ;;;
      rd t2 <- f4s (2 * nv) ;;
      rd a2 <- rlift (scatter ny1 nx1 jv iv (combine (every 2 0 t2) (every 2 1 t2)) (fun _ _ => None)) ;;
      seek ((nc1 - Z.of_nat ic1 - 1) * (8 * nu + 8 * nv + 16) + 4) ;;;
      rret (dict_set d (strip nm) (Local ny1 nx1 ln1 lt1 a, Local ny1 nx1 ln1 lt1 a2))
  | _ => rerr ValueError
  end.
(** OTIS.py:1404-1495 read_atlas_transport *)
Definition read_atlas_transport (ic : nat) (con : bytes) :
  reader ((list (list (Z * Z)) * list (list (Z * Z))) * list (bytes * (local (Z * Z) * local (Z * Z)))) :=
  i4 ;;; rd s <- i4x3 ;;
  let nx := fst (fst s) in let ny := snd (fst s) in let nc := snd s in
  f4s 2 ;;; f4s 2 ;;;
  seek (8 + nc * 4 + Z.of_nat ic * (nx * ny * 16 + 8)) ;;;
  rlift (shape_ok ny nx) ;;;
  rd rows <- rloop (Z.to_nat ny) (read_row4 nx) ;;
  seek ((nc - Z.of_nat ic - 1) * (nx * ny * 16 + 8) + 4) ;;;
  rd sz <- fsize ;;
  rd d <- while_more (S (Z.to_nat sz)) (atlas_uv_body con) [] ;;
  rret ((map (map fst) rows, map (map snd) rows), d).

(** OTIS.py:1051-1071: one local grid *)
Definition atlas_grid_body (d : list (bytes * local Z)) : reader (list (bytes * local Z)) :=
  seek 4 ;;; rd nx1 <- i4 ;; rd ny1 <- i4 ;; rd nd <- i4 ;;
  rd lt1 <- f4s 2 ;; rd ln1 <- f4s 2 ;;
  rd nm <- read 20 ;; seek 8 ;;; rd iz <- i4s nd ;; rd jz <- i4s nd ;; seek 8 ;;;
  rlift (shape_ok ny1 nx1) ;;;
  rd t <- f4s nd ;; rd a <- rlift (scatter ny1 nx1 jz iz t (fun _ _ => None)) ;; seek 4 ;;;
  rret (dict_set d (strip nm) (Local ny1 nx1 ln1 lt1 a)).
(** OTIS.py:1008-1076 read_atlas_grid: global grid, global mask and local bathymetries *)
Definition read_atlas_grid : reader (otis_grid * list (list Z) * list (bytes * local Z)) :=
  seek 4 ;;; rd nx <- i4 ;; rd ny <- i4 ;; rd ylim <- f4s 2 ;; rd xlim <- f4s 2 ;; rd dt <- f4 ;;
  rd iob <- read_iob ;;
  rd hz <- read_plane ny nx false ;; seek 8 ;;; rd mz <- read_plane ny nx true ;; seek 8 ;;;
  rd pm <- read_plane ny nx true ;; seek 4 ;;;
  rd sz <- fsize ;;
  rd d <- while_more (S (Z.to_nat sz)) atlas_grid_body [] ;;
  rret (OtisGrid nx ny ylim xlim dt iob hz mz, pm, d).
