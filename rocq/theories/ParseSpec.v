(** The constituent names that the parser of io/constituents.py knows, and
    what it means for a text to contain one. *)
From Coq Require Import String Ascii List.
Import ListNotations.
Open Scope string_scope.

Definition known_names : list string :=
  [ "sa"; "ssa"; "mm"; "msf"; "mt"; "mf"; "alpha1"; "2q1"; "sigma1"; "q1"; "rho1"; "o1"; "tau1";
    "m1"; "chi1"; "pi1"; "p1"; "s1"; "k1"; "psi1"; "phi1"; "beta1"; "theta1"; "j1"; "oo1";
    "2n2"; "mu2"; "n2"; "nu2"; "m2"; "m2a"; "m2b"; "lambda2"; "l2"; "t2"; "s2"; "alpha2"; "beta2";
    "delta2"; "gamma2"; "r2"; "k2"; "eta2"; "mns2"; "2sm2"; "m3"; "mk3"; "s3"; "mn4"; "m4"; "ms4";
    "mk4"; "so1"; "s4"; "s5"; "m6"; "s6"; "s7"; "s8"; "m8"; "mks2"; "msqm"; "mtm"; "n4"; "eps2";
    "ups1"; "z0"; "node" ].

(** abbreviations used by data providers *)
Definition abbreviations : list (string * string) :=
  [ ("2n", "2n2"); ("alp1", "alpha1"); ("alp2", "alpha2"); ("bet1", "beta1"); ("bet2", "beta2");
    ("del2", "delta2"); ("e2", "eps2"); ("ep2", "eps2"); ("gam2", "gamma2"); ("la2", "lambda2");
    ("lam2", "lambda2"); ("lm2", "lambda2"); ("msq", "msqm"); ("omega0", "node"); ("om0", "node");
    ("rho", "rho1"); ("sig1", "sigma1"); ("the", "theta1"); ("the1", "theta1") ].

(** the text [s] contains [w] *)
Definition inside (w s : string) : Prop := exists before after, s = before ++ w ++ after.
(** a text starting with [w] *)
Definition starts_with (w s : string) : Prop := exists after, s = w ++ after.
(** a text ending with [w] *)
Definition ends_with (w s : string) : Prop := exists before, s = before ++ w.

(** What may not surround a name for it to be taken as that name: texts just
    before and texts just after. *)
Definition not_before (name : string) : list string :=
  if string_dec name "sa" then ["s"] else
  if string_dec name "q1" then ["2"] else
  if string_dec name "o1" then ["rh"; "o"; "s"] else
  if string_dec name "p1" then ["al"] else
  if string_dec name "n2" then ["2"] else
  if string_dec name "m2" then ["2s"; "l"; "la"; "ga"] else
  if string_dec name "l2" then ["de"] else
  if string_dec name "t2" then ["be"] else
  if string_dec name "s2" then ["mn"; "mk"; "ep"] else
  if string_dec name "eta2" then ["b"] else
  if string_dec name "s4" then ["m"] else
  if string_dec name "n4" then ["m"] else [].
Definition not_after (name : string) : list string :=
  if string_dec name "mt" then ["m"; "ide"] else
  if string_dec name "m2" then ["a"; "b"] else
  if string_dec name "s2" then ["0"] else [].

(** [name] stands between [before] and [after] as a name of its own *)
Definition stands (before name after : string) : Prop :=
  (forall b, In b (not_before name) -> ~ ends_with b before) /\
  (forall a, In a (not_after name) -> ~ starts_with a after).
