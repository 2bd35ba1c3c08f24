(** Tidal potential amplitudes and oceans with a constant response (C60). *)
From Coq Require Import String List Reals.
From Verif Require Import PyBase RBase StrBase PredictModel InferModel InferSpec.
Import ListNotations.
Open Scope R_scope.

(** Cartwright-Tayler-Edden amplitudes of the tide generating potential, in units
    of 1e-6 m, by constituent (absolute values).  m1 is the larger and m1b the
    smaller of the two lines of M1, l2b the smaller of the two of L2. *)
Definition cte_table : list (string * R) :=
  [("node", 27929); ("sa", 4922); ("ssa", 30988); ("sta", 1809); ("msm", 6728); ("mm", 35184); ("msf", 5837); ("mf", 66607);
   ("mst", 2422); ("mt", 12753); ("msqm", 2037); ("mq", 1687);
   ("2q1", 6638); ("sigma1", 8023); ("q1", 50184); ("rho1", 9540); ("o1", 262163); ("tau1", 3430); ("beta1", 1941);
   ("m1", 20604); ("m1a", 20604); ("m1b", 7420); ("chi1", 3925); ("pi1", 7125); ("p1", 122008); ("k1", 368731); ("psi1", 2929);
   ("phi1", 5247); ("theta1", 3966); ("j1", 20618); ("so1", 3417); ("oo1", 11293); ("ups1", 2157);
   ("eps2", 4669); ("2n2", 16011); ("mu2", 19316); ("n2", 121006); ("nu2", 22983); ("gamma2", 1902); ("alpha2", 2178);
   ("m2", 631931); ("beta2", 1921); ("delta2", 714); ("lambda2", 4662); ("l2", 17862); ("l2b", 4464); ("t2", 17180);
   ("s2", 294019); ("r2", 2463); ("k2", 79924); ("eta2", 4467)]%string.
Definition cte (c : string) : R := match find (fun q => String.eqb (fst q) c) cte_table with Some q => snd q / 10^6 | None => 0 end.

(** The constants of the majors [l] in the row are those of an ocean whose response
    to the (tilted) potential is the same complex number [resp] for all of them. *)
Definition flat (g : R -> R) (freq : string -> R) (cs : list string) (row : list (cpx * bool)) (l : list string) (resp : cpx) : Prop :=
  forall c, In c l -> fst (supplied cs row c) = cscale (cte c * g (freq c)) resp.
