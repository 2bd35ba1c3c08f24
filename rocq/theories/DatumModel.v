(** Model of the datum class (pyTMD/crs.py:250-629) over the reals. *)
From Coq Require Import Reals String List Bool ZArith.
From Verif Require Import PyBase RBase StrBase.
Import ListNotations.
Open Scope R_scope.

(** crs.py:250-253 *)
Definition ellipsoid_names : list string :=
  ["CLK66"; "GRS67"; "GRS80"; "WGS72"; "WGS84"; "ATS77"; "NAD27"; "NAD83"; "INTER"; "KRASS"; "MAIRY"; "HGH80"; "TOPEX"; "EGM96"; "IERS"]%string.
Definition unit_names : list string := ["MKS"; "CGS"]%string.

(** Keyword arguments of datum() (crs.py:297-303); None is Python's None. *)
Record kwargs := Kw { k_ellipsoid : string; k_units : string;
  k_a : option R; k_flat : option R; k_GM : option R; k_omega : option R }.
Definition defaults : kwargs := Kw "WGS84" "MKS" None None None None.

(** Attributes set by __init__ *)
Record datum := Datum { d_name : string; d_units : string; d_a : R; d_flat : R;
  d_GM : R; d_omega : R; d_G : R; d_gamma : R }.

(** crs.py:316-386: the branches on the name, (a, flat, GM, omega) *)
Definition table (name : string) : option (R * R * option R * option R) :=
  if mem_str name ["CLK66"; "NAD27"]%string then Some (6378206.4, 1 / 294.9786982, None, None)
  else if mem_str name ["GRS80"; "NAD83"]%string then Some (6378135, 1 / 298.26, Some 3.986005e14, None)
  else if String.eqb name "GRS67" then Some (6378160, 1 / 298.247167427, Some 3.98603e14, Some 7292115.1467e-11)
  else if String.eqb name "WGS72" then Some (6378135, 1 / 298.26, None, None)
  else if String.eqb name "WGS84" then Some (6378137, 1 / 298.257223563, None, None)
  else if String.eqb name "ATS77" then Some (6378135, 1 / 298.257, None, None)
  else if String.eqb name "KRASS" then Some (6378245, 1 / 298.3, None, None)
  else if String.eqb name "INTER" then Some (6378388, 1 / 297, None, None)
  else if String.eqb name "MAIRY" then Some (6377340.189, 1 / 299.3249646, None, None)
  else if String.eqb name "HGH80" then Some (6378273, 1 / 298.279411123064, None, None)
  else if String.eqb name "TOPEX" then Some (6378136.3, 1 / 298.257, Some 3.986004415e14, None)
  else if String.eqb name "EGM96" then Some (6378136.3, 1 / 298.256415099, Some 3.986004415e14, None)
  else if String.eqb name "IERS" then Some (6378136.6, 1 / 298.25642, None, None)
  else None.

Definition pick (o d : option R) (z : R) : R :=
  match o with Some x => x | None => match d with Some x => x | None => z end end.

(** crs.py:297-428 __init__.  A named ellipsoid that lists no GM (omega) takes the
    default; the tuples of names at 399 and 407 are exactly those with an entry in
    the table above. *)
Definition make (k : kwargs) : res datum :=
  let units := upper (k_units k) in
  let name := match k_a k, k_flat k with Some _, Some _ => "user_defined"%string | _, _ => upper (k_ellipsoid k) end in
  if negb (mem_str name (ellipsoid_names ++ ["user_defined"%string])) then Err AssertionError
  else if negb (mem_str units unit_names) then Err AssertionError
  else
    let row := match k_a k, k_flat k with
               | Some a, Some f => Some (a, f, None, None)
               | _, _ => table name
               end in
    match row with
    | None => Err AttributeError
    | Some (a, f, gm, om) =>
        let GM := pick (k_GM k) gm 3.986004418e14 in
        let omega := pick (k_omega k) om 7292115e-11 in
        let cgs := String.eqb units "CGS" in
        Ok (Datum name units (if cgs then a * 100 else a) f (if cgs then GM * 1e6 else GM) omega
              (if cgs then 6.67430e-11 * 1000 else 6.67430e-11) (if cgs then 9.80665 * 100 else 9.80665))
    end.

(** Derived parameters, crs.py:430-615 *)
Section Derived.
  Variable d : datum.
  Definition rad_e : R := d_a d * Rpower (1 - d_flat d) (1 / 3).
  Definition b_ax : R := (1 - d_flat d) * d_a d.
  Definition ratio : R := 1 - d_flat d.
  Definition rad_p : R := d_a d / (1 - d_flat d).
  Definition ecc : R := sqrt ((2 * d_flat d - d_flat d ^ 2) * d_a d ^ 2).
  Definition ecc1 : R := ecc / d_a d.
  Definition ecc2 : R := ecc / b_ax.
  Definition m_par : R := d_omega d ^ 2 * ((1 - d_flat d) * d_a d ^ 3) / d_GM d.
  Definition f2 : R := - d_flat d + 5 / 2 * m_par + 1 / 2 * d_flat d ^ 2 - 26 / 7 * d_flat d * m_par + 15 / 4 * m_par ^ 2.
  Definition f4 : R := - (1 / 2) * d_flat d ^ 2 + 5 / 2 * d_flat d * m_par.
  Definition q_par : R := 0.5 * ((1 + 3 / ecc2 ^ 2) * atan ecc2 - 3 / ecc2).
  Definition q0_par : R := 3 * (1 + 1 / ecc2 ^ 2) * (1 - 1 / ecc2 * atan ecc2) - 1.
  Definition J2 : R := ecc1 ^ 2 * (1 - 2 * m_par * ecc2 / (15 * q_par)) / 3.
  Definition C20 : R := - J2 / sqrt 5.
  Definition gamma_a : R := d_GM d / (d_a d * b_ax) * (1 - 3 / 2 * m_par - 3 / 14 * ecc2 ^ 2 * m_par).
  Definition gamma_b : R := d_GM d / d_a d ^ 2 * (1 + m_par + 3 / 7 * ecc2 ^ 2 * m_par).
  Definition gamma_0 (theta : R) : R := gamma_a * (1 + f2 * cos theta ^ 2 + f4 * cos theta ^ 4).
  Definition gamma_h (theta height : R) : R :=
    gamma_0 theta * (1 - 2 / d_a d * (1 + d_flat d + m_par - 2 * d_flat d * cos theta ^ 2) * height
                     + 3 / d_a d ^ 2 * height ^ 2).
  Definition dk : R := b_ax * gamma_b / (d_a d * gamma_b) - 1.
  Definition U0 : R := d_GM d / ecc * atan ecc2 + 1 / 3 * d_omega d ^ 2 * d_a d ^ 2.
  Definition area : R := PI * d_a d ^ 2 * (2 + (1 - ecc1 ^ 2) / ecc1 * ln ((1 + ecc1) / (1 - ecc1))).
  Definition volume : R := 4 * PI / 3 * d_a d ^ 3 * Rpower (1 - ecc1 ^ 2) 0.5.
  Definition rho_e : R := d_GM d / (d_G d * volume).
End Derived.
