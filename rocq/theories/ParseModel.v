(** Model of [constituents.parse] (pyTMD/io/constituents.py lines 230-273).

    The regular expression is an alternation of literals with negative
    look-behinds and look-aheads, followed by an optional prime, compiled with
    IGNORECASE.  Python's matcher tries the start positions from left to right
    and at each position the alternatives in order; since the optional prime
    always succeeds, no alternative is ever given up once its literal and its
    look-arounds agree.  Strings are ASCII (simplification: python would also
    let the long s match s and the Kelvin sign match k). *)
From Coq Require Import String Ascii List Arith Bool.
From Verif Require Import PyBase StrBase.
Import ListNotations.
Open Scope string_scope.

(** An alternative: texts that must not end just before it, its text and
    texts that must not start just after it. *)
Record alt := Alt { behind : list string; body : string; ahead : list string }.
Definition lit (s : string) : alt := Alt [] s [].

(** lines 243-252 *)
Definition cindex : list alt :=
  [ Alt ["s"] "sa" []; lit "ssa"; lit "mm"; lit "msf"; Alt [] "mt" ["m"; "ide"]; lit "mf"; lit "alpha1";
    lit "2q1"; lit "sigma1"; Alt ["2"] "q1" []; lit "rho1"; Alt ["rh"; "o"; "s"] "o1" []; lit "tau1";
    lit "m1"; lit "chi1"; lit "pi1"; Alt ["al"] "p1" []; lit "s1"; lit "k1"; lit "psi1"; lit "phi1"; lit "beta1";
    lit "theta1"; lit "j1"; lit "oo1"; lit "2n2"; lit "mu2"; Alt ["2"] "n2" []; lit "nu2";
    Alt ["2s"; "l"; "la"; "ga"] "m2" ["a"; "b"]; lit "m2a"; lit "m2b"; lit "lambda2";
    Alt ["de"] "l2" []; Alt ["be"] "t2" []; Alt ["mn"; "mk"; "ep"] "s2" ["0"]; lit "alpha2";
    lit "beta2"; lit "delta2"; lit "gamma2"; lit "r2"; lit "k2"; Alt ["b"] "eta2" []; lit "mns2"; lit "2sm2";
    lit "m3"; lit "mk3"; lit "s3"; lit "mn4"; lit "m4"; lit "ms4"; lit "mk4"; lit "so1"; Alt ["m"] "s4" []; lit "s5"; lit "m6";
    lit "s6"; lit "s7"; lit "s8"; lit "m8"; lit "mks2"; lit "msqm"; lit "mtm"; Alt ["m"] "n4" []; lit "eps2"; lit "ups1";
    lit "z0"; lit "node" ].

(** lines 260-266 *)
Definition mapping : list (string * string) :=
  [ ("2n","2n2"); ("alp1", "alpha1"); ("alp2", "alpha2");
    ("bet1", "beta1"); ("bet2", "beta2"); ("del2", "delta2");
    ("e2","eps2"); ("ep2","eps2"); ("gam2", "gamma2");
    ("la2","lambda2"); ("lam2","lambda2"); ("lm2","lambda2");
    ("msq", "msqm"); ("omega0", "node"); ("om0", "node");
    ("rho", "rho1"); ("sig1","sigma1");
    ("the", "theta1"); ("the1", "theta1") ].

(** does the text start with the (lower case) literal, ignoring case *)
Fixpoint starts_ci (w s : string) : bool :=
  match w, s with
  | "", _ => true
  | String c w', String d s' => Ascii.eqb c (lower_ascii d) && starts_ci w' s'
  | _, _ => false
  end.

Fixpoint srev (s acc : string) : string :=
  match s with "" => acc | String c s' => srev s' (String c acc) end.

(** does the alternative match here?  [before] is the text read so far, last
    character first *)
Definition alt_matches (before rest : string) (a : alt) : bool :=
  forallb (fun b => negb (starts_ci (srev b "") before)) (behind a) &&
  starts_ci (body a) rest &&
  forallb (fun x => negb (starts_ci x (substring (String.length (body a)) (String.length rest) rest))) (ahead a).

(** the text matched at this position: an alternative and, if present, a prime *)
Definition match_here (before rest : string) : option string :=
  match find (alt_matches before rest) cindex with
  | None => None
  | Some a =>
      let n := String.length (body a) in
      let w := substring 0 n rest in
      match String.get n rest with
      | Some c => if Ascii.eqb c "'" then Some (w ++ "'") else Some w
      | None => Some w
      end
  end.

(** rx.search and rx.findall(...)[0] joined: the leftmost match, lines 255-258 *)
Fixpoint search (before rest : string) : option string :=
  match match_here before rest with
  | Some w => Some w
  | None => match rest with "" => None | String c rest' => search (String c before) rest' end
  end.

(** [w in s] *)
Fixpoint contains (w s : string) : bool :=
  String.prefix w s || match s with "" => false | String _ s' => contains w s' end.

(** parse, lines 255-273 *)
Definition parse (s : string) : res string :=
  match search "" s with
  | Some w => Ok (lower w)
  | None =>
      match find (fun m => contains (fst m) (lower s)) mapping with
      | Some m => Ok (snd m)
      | None => Err ValueError
      end
  end.
