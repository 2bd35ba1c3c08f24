(** Model of pyTMD/math.py. Arrays are modelled element-wise; arithmetic over R. *)
From Coq Require Import String List Reals ZArith Bool Factorial.
From Verif Require Import PyBase RBase StrBase.
Import ListNotations.
Open Scope R_scope.

(** math.py:35-52 polynomial_sum: sum of c_i * t**i *)
Fixpoint poly_from (cs : list R) (i : nat) (t : R) : R :=
  match cs with [] => 0 | c :: cs' => c * t ^ i + poly_from cs' (S i) t end.
Definition polynomial_sum (cs : list R) (t : R) : R := poly_from cs 0 t.

(** math.py:54-68 normalize_angle (np.mod) *)
Definition normalize_angle (theta circle : R) : R := rmod theta circle.

(** ** 3-vectors and 3x3 matrices *)
Record vec := Vec { vx : R; vy : R; vz : R }.
Record mat := Mat { m00 : R; m01 : R; m02 : R;
                  m10 : R; m11 : R; m12 : R;
                  m20 : R; m21 : R; m22 : R }.

Definition row (a b c : R) (v : vec) : R := a * vx v + b * vy v + c * vz v.
Definition mapply (A : mat) (v : vec) : vec :=
  Vec (row (m00 A) (m01 A) (m02 A) v) (row (m10 A) (m11 A) (m12 A) v)
    (row (m20 A) (m21 A) (m22 A) v).
(** einsum 'ij,jk->ik' *)
Definition mmul (A B : mat) : mat :=
  let c0 := Vec (m00 B) (m10 B) (m20 B) in
  let c1 := Vec (m01 B) (m11 B) (m21 B) in
  let c2 := Vec (m02 B) (m12 B) (m22 B) in
  Mat (row (m00 A) (m01 A) (m02 A) c0) (row (m00 A) (m01 A) (m02 A) c1) (row (m00 A) (m01 A) (m02 A) c2)
    (row (m10 A) (m11 A) (m12 A) c0) (row (m10 A) (m11 A) (m12 A) c1) (row (m10 A) (m11 A) (m12 A) c2)
    (row (m20 A) (m21 A) (m22 A) c0) (row (m20 A) (m21 A) (m22 A) c1) (row (m20 A) (m21 A) (m22 A) c2).

(** math.py:70-110 rotate *)
Definition rot_x (t : R) : mat :=
  Mat 1 0 0  0 (cos t) (sin t)  0 (- sin t) (cos t).
Definition rot_y (t : R) : mat :=
  Mat (cos t) 0 (- sin t)  0 1 0  (sin t) 0 (cos t).
Definition rot_z (t : R) : mat :=
  Mat (cos t) (sin t) 0  (- sin t) (cos t) 0  0 0 1.
Definition rotate (t : R) (axis : string) : res mat :=
  if String.eqb (lower axis) "x" then Ok (rot_x t)
  else if String.eqb (lower axis) "y" then Ok (rot_y t)
  else if String.eqb (lower axis) "z" then Ok (rot_z t)
  else Err ValueError.

(** np.round: nearest integer, ties to even *)
Definition np_round (x : R) : Z :=
  let n := rfloor x in
  let d := x - IZR n in
  if Rlt_dec d (1 / 2) then n
  else if Rlt_dec (1 / 2) d then (n + 1)%Z
  else if Z.even n then n else (n + 1)%Z.

(** math.py:112-132 aliasing *)
Definition aliasing (f fs : R) : R := Rabs (f - fs * IZR (np_round (f / fs))).

(** math.py:134-191 legendre (degree 0 to 3); l and m are integers *)
Definition plm_table (x u : R) : list (list R) :=
  [ [1; 0; 0; 0];
    [x; u; 0; 0];
    [0.5 * (3 * x ^ 2 - 1); 3 * x * u; 3 * u ^ 2; 0];
    [0.5 * (5 * x ^ 3 - 3 * x); 1.5 * (5 * x ^ 2 - 1) * u; 15 * x * u ^ 2; 15 * u ^ 3] ].
Definition legendre (l : Z) (x : R) (m : Z) : res R :=
  if negb ((0 <=? l)%Z && (l <=? 3)%Z) then Err AssertionError
  else if negb ((0 <=? m)%Z && (m <=? l)%Z) then Err AssertionError
  else Ok ((-1) ^ (Z.to_nat m) *
           nth (Z.to_nat m) (nth (Z.to_nat l) (plm_table x (sqrt (1 - x ^ 2))) []) 0).

(** math.py:193-243 assoc_legendre: one column of the recursion.
    [sect l] is Plm[l,l]; the entries are filled row by row, each row only
    reading the two previous ones, so the table is the recursive function. *)
Section Assoc.
  Variables (x u : R).
  Fixpoint sect (l : nat) : R :=
    match l with
    | O => 1
    | S O => sqrt 3 * u
    | S l' => u * sqrt (2 * INR l + 1) * sqrt (1 / (2 * INR l)) * sect l'
    end.
  (** Plm[l,m] for l > m: norm, a, b of lines 232-236 *)
  Definition step (l m : nat) (p1 p2 : R) : R :=
    let L := INR l in let K := INR m in
    let norm := sqrt (2 * L + 1) in
    let a := sqrt ((2 * L - 1) / ((L - K) * (L + K))) in
    let b := sqrt ((L + K - 1) * (L - K - 1) / ((L - K) * (L + K) * (2 * L - 3))) in
    a * norm * x * p1 - b * norm * p2.
  (** (Plm[l,m], Plm[l-1,m]); entries above the diagonal are zero *)
  Fixpoint column (m l : nat) : R * R :=
    match l with
    | O => (if Nat.eqb m 0 then 1 else 0, 0)
    | S l' =>
        let '(p1, p2) := column m l' in
        (if Nat.ltb l m then 0
         else if Nat.eqb l m then sect l
         else if Nat.eqb l 1 then sqrt 3 * x          (* line 222 *)
         else step l m p1 p2, p1)
    end.
  Definition assoc_entry (l m : nat) : R := fst (column m l).
End Assoc.
(** Plm[1,0] is assigned unconditionally (line 222): IndexError for lmax = 0. *)
Definition assoc_legendre (lmax : nat) (x : R) : res (list (list R)) :=
  if Nat.eqb lmax 0 then Err IndexError
  else Ok (map (fun l => map (fun m => assoc_entry x (sqrt (1 - x ^ 2)) l m) (seq 0 (S lmax)))
               (seq 0 (S lmax))).

(** math.py:245-288 sph_harm.  scipy's factorial is 0 at negative integers; in
    that case legendre fails its assertions. *)
Definition sfact (n : Z) : R := if (n <? 0)%Z then 0 else INR (fact (Z.to_nat n)).
Definition sph_harm (l : Z) (theta phi : R) (m : Z) : res cpx :=
  let norm := sqrt (sfact (l - m) / sfact (l + m)) in
  do p <- legendre l (cos theta) m ;;
  let dfactor := sqrt ((2 * IZR l + 1) / (4 * PI)) in
  Ok (cscale (dfactor * (norm * p) * sin theta) (cexp (IZR m * phi))).
