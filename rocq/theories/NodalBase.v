(** Vocabulary of the transcription of arguments.nodal (pyTMD/arguments.py:479-1170):
    options, trigonometric environment and the shape of one branch. *)
From Coq Require Import Reals String Ascii List Bool ZArith.
From Verif Require Import RBase AstroModel.
Import ListNotations.
Open Scope R_scope.

(** arguments.py:515-521: correction type flags and the M1 option *)
Record opts := Opts { otis : bool; fes : bool; perth3 : bool; m1opt : string }.
Definition options (corrections m1 : string) : opts :=
  Opts (existsb (String.eqb corrections) ["OTIS"; "ATLAS"; "TMD3"; "netcdf"]%string)
       (String.eqb corrections "FES") (String.eqb corrections "perth3") m1.

(** arguments.py:523-566: quantities computed once per call from n and p
    (degrees).  [s2pn], [c2pn] are sin and cos of (2p-n)*dtr, [spn], [cpn] of
    (p-n)*dtr, [s2np], [c2np] of 2(n-p)*dtr, which the code writes inline. *)
Record env := Env {
  sinn : R; cosn : R; sin2n : R; cos2n : R; sin3n : R;
  sinp : R; cosp : R; sin2p : R; cos2p : R;
  s2pn : R; c2pn : R; spn : R; cpn : R; s2np : R; c2np : R;
  incl : R; xi : R; nu : R; nu_prime : R; nu_sec : R;
  ra1 : R; rr : R }.

(** arguments.py:549-566: orbital inclination etc. of the FES scheme.  In the
    code [p] enters lines 556-558 in degrees and [xi] in radians. *)
Definition fes_II (n : R) : R := acos (0.913694997 - 0.035692561 * cos (n * dtr)).
Definition fes_at1 (n : R) : R := atan (1.01883 * tan (n * dtr / 2)).
Definition fes_at2 (n : R) : R := atan (0.64412 * tan (n * dtr / 2)).
Definition fes_xi (n : R) : R :=
  let x := - fes_at1 n - fes_at2 n + n * dtr in atan2 (sin x) (cos x).
Definition fes_nu (n : R) : R := fes_at1 n - fes_at2 n.
Definition fes_I2 (n : R) : R := tan (fes_II n / 2).
Definition fes_Ra1 (n p : R) : R :=
  sqrt (1 - 12 * (fes_I2 n) ^ 2 * cos (2 * (p - fes_xi n)) + 36 * (fes_I2 n) ^ 4).
Definition fes_R (n p : R) : R :=
  let P2 := sin (2 * (p - fes_xi n)) in
  let Q2 := 1 / (6 * (fes_I2 n) ^ 2) - cos (2 * (p - fes_xi n)) in
  atan (P2 / Q2).
Definition fes_nu_prime (n : R) : R :=
  let P := sin (2 * fes_II n) * sin (fes_nu n) in
  let Q := sin (2 * fes_II n) * cos (fes_nu n) + 0.3347 in
  atan (P / Q).
Definition fes_nu_sec (n : R) : R :=
  let P := (sin (fes_II n)) ^ 2 * sin (2 * fes_nu n) in
  let Q := (sin (fes_II n)) ^ 2 * cos (2 * fes_nu n) + 0.0727 in
  0.5 * atan (P / Q).

Definition mk_env (n p : R) : env := {|
  sinn := sin (n * dtr); cosn := cos (n * dtr);
  sin2n := sin (2 * n * dtr); cos2n := cos (2 * n * dtr); sin3n := sin (3 * n * dtr);
  sinp := sin (p * dtr); cosp := cos (p * dtr);
  sin2p := sin (2 * p * dtr); cos2p := cos (2 * p * dtr);
  s2pn := sin ((2 * p - n) * dtr); c2pn := cos ((2 * p - n) * dtr);
  spn := sin ((p - n) * dtr); cpn := cos ((p - n) * dtr);
  s2np := sin (2 * (n - p) * dtr); c2np := cos (2 * (n - p) * dtr);
  incl := fes_II n; xi := fes_xi n; nu := fes_nu n;
  nu_prime := fes_nu_prime n; nu_sec := fes_nu_sec n;
  ra1 := fes_Ra1 n p; rr := fes_R n p |}.

(** Body of a branch: [Terms t1 t2] falls through to the common
    sqrt/arctan2 (lines 1165-1166), [Direct f u] assigns and continues,
    [Compound l] recurses: for each (parent, a, b) in l the factor is multiplied
    by f_parent**a and the angle increased by b*u_parent. *)
Inductive rule :=
  | Terms (t1 t2 : R)
  | Direct (f u : R)
  | Compound (l : list (string * nat * Z)).

(** [c in (a, b, ...)] or, for a parenthesised string without comma, [c in 'abc']:
    Python substring membership. *)
Inductive test := InTup (l : list string) | InStr (s : string).
Fixpoint starts (c s : string) : bool :=
  match c, s with
  | EmptyString, _ => true
  | String a c', String b s' => Ascii.eqb a b && starts c' s'
  | String _ _, EmptyString => false
  end.
Fixpoint substr (c s : string) : bool :=
  starts c s || match s with EmptyString => false | String _ s' => substr c s' end.
Definition holds (t : test) (c : string) : bool :=
  match t with InTup l => existsb (String.eqb c) l | InStr s => substr c s end.

Notation branch := (test * (opts -> bool) * (env -> rule))%type (only parsing).
