(** Model of pyTMD/ellipse.py, element-wise (np.atleast_1d only adds a dimension). *)
From Coq Require Import Reals.
From Verif Require Import RBase.
Open Scope R_scope.

(** ellipse.py:44-94 ellipse: (umajor, uminor, uincl, uphase) *)
Definition ellipse (u v : cpx) : R * R * R * R :=
  let iv := cmul (0, 1) v in
  let wp := cscale (/ 2) (cadd u iv) in
  let wm := cscale (/ 2) (cconj (csub u iv)) in
  let ap := cabs wp in
  let am := cabs wm in
  let ep := rad2deg (carg wp) in
  let em := rad2deg (carg wm) in
  let umajor := ap + am in
  let uminor := ap - am in
  let uincl := (em + ep) / 2 in
  let uphase := (em - ep) / 2 in
  let k := IZR (rfloor (uincl / 180)) in
  let uincl := uincl - 180 * k in
  let uphase := uphase + 180 * k in
  (umajor, uminor, uincl, rmod uphase 360).

(** ellipse.py:96-143 inverse: (u, v) *)
Definition inverse (umajor uminor uincl uphase : R) : cpx * cpx :=
  let uincl := deg2rad uincl in
  let uphase := deg2rad uphase in
  let ep := uincl - uphase in
  let em := uincl + uphase in
  let ap := (umajor + uminor) / 2 in
  let am := (umajor - uminor) / 2 in
  let wp := cscale ap (cexp ep) in
  let wm := cscale am (cexp em) in
  let u := cadd wp (cconj wm) in
  let v := cmul (0, -1) (csub wp (cconj wm)) in
  (u, v).
