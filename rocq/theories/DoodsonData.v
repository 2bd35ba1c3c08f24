(** Generated by tools/gen_doodson.py from pyTMD/data/doodson.json (all 483
    entries, in file order): constituent -> tau, s, h, p, n, pp, k. *)
From Coq Require Import String List ZArith.
Import ListNotations.
Open Scope Z_scope.

Definition doodson_table : list (string * list Z) :=
  [
   ("z0"%string, [0; 0; 0; 0; 0; 0; 0]);
   ("node"%string, [0; 0; 0; 0; 1; 0; 2]);
   ("omega0"%string, [0; 0; 0; 0; 1; 0; 2]);
   ("sa"%string, [0; 0; 1; 0; 0; (-1); 0]);
   ("ssa"%string, [0; 0; 2; 0; 0; 0; 0]);
   ("sta"%string, [0; 0; 3; 0; 0; (-1); 0]);
   ("st"%string, [0; 0; 3; 0; 0; 0; 0]);
   ("msm"%string, [0; 1; (-2); 1; 0; 0; 0]);
   ("mm"%string, [0; 1; 0; (-1); 0; 0; 0]);
   ("msfa"%string, [0; 2; (-3); 0; 0; 0; 0]);
   ("msf"%string, [0; 2; (-2); 0; 0; 0; 0]);
   ("msfb"%string, [0; 2; (-1); 0; 0; 0; 0]);
   ("mfa"%string, [0; 2; (-1); 0; 0; 0; 0]);
   ("mf-"%string, [0; 2; 0; 0; (-1); 0; 0]);
   ("mf"%string, [0; 2; 0; 0; 0; 0; 0]);
   ("mf+"%string, [0; 2; 0; 0; 1; 0; 0]);
   ("mfn"%string, [0; 2; 0; 0; 1; 0; 0]);
   ("mfb"%string, [0; 2; 1; 0; 0; 0; 0]);
   ("sn0"%string, [0; 3; (-2); (-1); 0; 0; 0]);
   ("mst"%string, [0; 3; (-2); 1; 0; 0; 0]);
   ("mt"%string, [0; 3; 0; (-1); 0; 0; 0]);
   ("mtm"%string, [0; 3; 0; (-1); 0; 0; 0]);
   ("msqm"%string, [0; 4; (-2); 0; 0; 0; 0]);
   ("mq"%string, [0; 4; 0; (-2); 0; 0; 0]);
   ("2smn0"%string, [0; 5; (-4); (-1); 0; 0; 0]);
   ("msp"%string, [0; 5; (-2); (-1); 0; 0; 0]);
   ("mp"%string, [0; 5; 0; (-3); 0; 0; 0]);
   ("2qj1"%string, [1; (-6); 0; 3; 0; 0; 1]);
   ("2qk1"%string, [1; (-5); 0; 2; 0; 0; 1]);
   ("2qs1"%string, [1; (-5); 1; 2; 0; 0; 0]);
   ("2qp1"%string, [1; (-5); 2; 2; 0; 0; (-1)]);
   ("2oj1"%string, [1; (-4); 0; 1; 0; 0; 1]);
   ("alpha1"%string, [1; (-4); 2; 1; 0; 0; (-1)]);
   ("2ok1"%string, [1; (-3); 0; 0; 0; 0; 1]);
   ("2q1'"%string, [1; (-3); 0; 1; 0; 0; 2]);
   ("2q1"%string, [1; (-3); 0; 2; 0; 0; (-1)]);
   ("sigma1"%string, [1; (-3); 2; 0; 0; 0; (-1)]);
   ("q1'"%string, [1; (-2); 0; 0; 0; 0; 2]);
   ("q1"%string, [1; (-2); 0; 1; 0; 0; (-1)]);
   ("rho1"%string, [1; (-2); 2; (-1); 0; 0; (-1)]);
   ("np1"%string, [1; (-2); 2; 1; 0; 0; 1]);
   ("opk1"%string, [1; (-1); (-2); 0; 0; 0; 1]);
   ("oa1"%string, [1; (-1); (-1); 0; 0; 0; (-1)]);
   ("o1n"%string, [1; (-1); 0; 0; (-1); 0; (-1)]);
   ("o1-"%string, [1; (-1); 0; 0; (-1); 0; (-1)]);
   ("o1"%string, [1; (-1); 0; 0; 0; 0; (-1)]);
   ("o1+"%string, [1; (-1); 0; 0; 1; 0; (-1)]);
   ("o1'"%string, [1; (-1); 0; 1; 0; 0; 2]);
   ("ob1"%string, [1; (-1); 1; 0; 0; 0; (-1)]);
   ("ms1"%string, [1; (-1); 1; 0; 0; 0; 2]);
   ("mp1"%string, [1; (-1); 2; 0; 0; 0; 1]);
   ("tau1"%string, [1; (-1); 2; 0; 0; 0; 1]);
   ("beta1"%string, [1; 0; (-2); 1; 0; 0; 1]);
   ("pqo1"%string, [1; 0; (-2); 1; 0; 0; (-1)]);
   ("2oq1"%string, [1; 0; 0; (-1); 0; 0; (-1)]);
   ("m1'"%string, [1; 0; 0; 0; 0; 0; 2]);
   ("m1"%string, [1; 0; 0; 0; 0; 0; 1]);
   ("m1a"%string, [1; 0; 0; 1; 0; 0; 1]);
   ("m1b"%string, [1; 0; 0; (-1); 0; 0; 1]);
   ("no1"%string, [1; 0; 0; 1; 0; 0; 1]);
   ("chi1"%string, [1; 0; 2; (-1); 0; 0; 1]);
   ("2pk1"%string, [1; 1; (-4); 0; 0; 0; 1]);
   ("pi1"%string, [1; 1; (-3); 0; 0; 1; (-1)]);
   ("tk1"%string, [1; 1; (-3); 0; 0; 1; (-1)]);
   ("s1-1"%string, [1; 1; (-2); 0; 0; 0; 2]);
   ("p1"%string, [1; 1; (-2); 0; 0; 0; (-1)]);
   ("s1-"%string, [1; 1; (-1); 0; 0; (-1); 1]);
   ("s1"%string, [1; 1; (-1); 0; 0; 0; 2]);
   ("s1+"%string, [1; 1; (-1); 0; 0; 1; 1]);
   ("ojm1"%string, [1; 1; 0; (-2); 0; 0; (-1)]);
   ("k1'"%string, [1; 1; 0; (-1); 0; 0; 2]);
   ("k1-"%string, [1; 1; 0; 0; (-1); 0; (-1)]);
   ("k1"%string, [1; 1; 0; 0; 0; 0; 1]);
   ("s1+1"%string, [1; 1; 0; 0; 0; 0; 2]);
   ("k1+"%string, [1; 1; 0; 0; 1; 0; 1]);
   ("k1n"%string, [1; 1; 0; 0; 1; 0; 1]);
   ("k1++"%string, [1; 1; 0; 0; 2; 0; (-1)]);
   ("psi1"%string, [1; 1; 1; 0; 0; (-1); 1]);
   ("rp1"%string, [1; 1; 1; 0; 0; (-1); (-1)]);
   ("phi1"%string, [1; 1; 2; 0; 0; 0; 1]);
   ("kp1"%string, [1; 1; 2; 0; 0; 0; 1]);
   ("opq1"%string, [1; 2; (-2); (-1); 0; 0; (-1)]);
   ("the1"%string, [1; 2; (-2); 1; 0; 0; 1]);
   ("theta1"%string, [1; 2; (-2); 1; 0; 0; 1]);
   ("mq1"%string, [1; 2; 0; (-1); 0; 0; 1]);
   ("j1"%string, [1; 2; 0; (-1); 0; 0; 1]);
   ("j1'"%string, [1; 2; 0; 0; 0; 0; 2]);
   ("2po1"%string, [1; 3; (-4); 0; 0; 0; (-1)]);
   ("so1"%string, [1; 3; (-2); 0; 0; 0; 1]);
   ("oo1"%string, [1; 3; 0; 0; 0; 0; 1]);
   ("kpq1"%string, [1; 4; (-2); (-1); 0; 0; 1]);
   ("ups1"%string, [1; 4; 0; (-1); 0; 0; 1]);
   ("kq1"%string, [1; 4; 0; (-1); 0; 0; 1]);
   ("2jo1"%string, [1; 5; 0; (-2); 0; 0; (-1)]);
   ("kjq1"%string, [1; 5; 0; (-2); 0; 0; (-1)]);
   ("2ook1"%string, [1; 5; 0; 0; 0; 0; (-1)]);
   ("2oop1"%string, [1; 5; 2; 0; 0; 0; (-1)]);
   ("2jq1"%string, [1; 6; 0; (-3); 0; 0; (-1)]);
   ("2mn2s2"%string, [2; (-5); 4; 1; 0; 0; 0]);
   ("2nk2"%string, [2; (-4); 0; 2; 0; 0; 0]);
   ("3m(sk)2"%string, [2; (-4); 2; 0; 0; 0; 0]);
   ("3mks2"%string, [2; (-4); 2; 0; 0; 0; 0]);
   ("2ns2"%string, [2; (-4); 2; 2; 0; 0; 0]);
   ("3m2s2"%string, [2; (-4); 4; 0; 0; 0; 0]);
   ("oq2"%string, [2; (-3); 0; 1; 0; 0; 2]);
   ("mnk2"%string, [2; (-3); 0; 1; 0; 0; 0]);
   ("3n2"%string, [2; (-3); 0; 3; 0; 0; 0]);
   ("eps2"%string, [2; (-3); 2; 1; 0; 0; 0]);
   ("mns2"%string, [2; (-3); 2; 1; 0; 0; 0]);
   ("mnus2"%string, [2; (-3); 4; (-1); 0; 0; 0]);
   ("2ml2s2"%string, [2; (-3); 4; (-1); 0; 0; 2]);
   ("mnk2s2"%string, [2; (-3); 4; 1; 0; 0; 0]);
   ("2ms2k2"%string, [2; (-2); (-2); 0; 0; 0; 0]);
   ("2mk2"%string, [2; (-2); 0; 0; 0; 0; 0]);
   ("o2"%string, [2; (-2); 0; 0; 0; 0; 2]);
   ("2n2'"%string, [2; (-2); 0; 1; 0; 0; 1]);
   ("2n2"%string, [2; (-2); 0; 2; 0; 0; 0]);
   ("2nm2"%string, [2; (-2); 0; 2; 0; 0; 0]);
   ("2ms2"%string, [2; (-2); 2; 0; 0; 0; 0]);
   ("mu2"%string, [2; (-2); 2; 0; 0; 0; 0]);
   ("2mk2s2"%string, [2; (-2); 4; 0; 0; 0; 0]);
   ("omg2"%string, [2; (-2); 3; 0; 0; (-1); 0]);
   ("nsk2"%string, [2; (-1); (-2); 1; 0; 0; 0]);
   ("snk2"%string, [2; (-1); (-2); 1; 0; 0; 0]);
   ("na2"%string, [2; (-1); (-1); 1; 0; 0; 0]);
   ("n2'"%string, [2; (-1); 0; 0; 0; 0; 1]);
   ("n2"%string, [2; (-1); 0; 1; 0; 0; 0]);
   ("2ml2"%string, [2; (-1); 0; 1; 0; 0; 2]);
   ("nb2"%string, [2; (-1); 1; 1; 0; 0; 0]);
   ("nu2"%string, [2; (-1); 2; (-1); 0; 0; 0]);
   ("mmun2"%string, [2; (-1); 2; (-1); 0; 0; 0]);
   ("3m(sn)2"%string, [2; (-1); 2; (-1); 0; 0; 0]);
   ("nks2"%string, [2; (-1); 2; 1; 0; 0; 0]);
   ("nkp2"%string, [2; (-1); 2; 1; 0; 0; 2]);
   ("mkl2s2"%string, [2; (-1); 4; (-1); 0; 0; 2]);
   ("2kn2s2"%string, [2; (-1); 4; 1; 0; 0; 0]);
   ("msk2"%string, [2; 0; (-2); 0; 0; 0; 0]);
   ("op2"%string, [2; 0; (-2); 0; 0; 0; 2]);
   ("m2-2"%string, [2; 0; (-2); 0; 0; 0; 0]);
   ("gamma2"%string, [2; 0; (-2); 2; 0; 0; 2]);
   ("gam2"%string, [2; 0; (-2); 2; 0; 0; 2]);
   ("alp2"%string, [2; 0; (-1); 0; 0; 1; 2]);
   ("alpha2"%string, [2; 0; (-1); 0; 0; 1; 2]);
   ("m2a"%string, [2; 0; (-1); 0; 0; 1; 0]);
   ("m2-1"%string, [2; 0; (-1); 0; 0; 0; 0]);
   ("ma2"%string, [2; 0; (-1); 0; 0; 0; 0]);
   ("m2-"%string, [2; 0; 0; 0; (-1); 0; 2]);
   ("m2"%string, [2; 0; 0; 0; 0; 0; 0]);
   ("ko2"%string, [2; 0; 0; 0; 0; 0; 0]);
   ("m2+"%string, [2; 0; 0; 0; 1; 0; 2]);
   ("m2'"%string, [2; 0; 0; 1; 0; 0; (-1)]);
   ("mb2"%string, [2; 0; 1; 0; 0; 0; 0]);
   ("m2+1"%string, [2; 0; 1; 0; 0; 0; 0]);
   ("m2b"%string, [2; 0; 1; 0; 0; (-1); 0]);
   ("beta2"%string, [2; 0; 1; 0; 0; (-1); 0]);
   ("delta2"%string, [2; 0; 2; 0; 0; 0; 0]);
   ("m2+2"%string, [2; 0; 2; 0; 0; 0; 0]);
   ("mks2"%string, [2; 0; 2; 0; 0; 0; 0]);
   ("m2(ks)2"%string, [2; 0; 4; 0; 0; 0; 0]);
   ("2snmk2"%string, [2; 1; (-4); 1; 0; 0; 0]);
   ("2sn(mk)2"%string, [2; 1; (-4); 1; 0; 0; 0]);
   ("snm2"%string, [2; 1; (-2); 1; 0; 0; 0]);
   ("lambda2"%string, [2; 1; (-2); 1; 0; 0; 2]);
   ("2mn2"%string, [2; 1; 0; (-1); 0; 0; 0]);
   ("l2"%string, [2; 1; 0; (-1); 0; 0; 2]);
   ("l2a"%string, [2; 1; 0; (-1); 0; 0; 2]);
   ("l2'"%string, [2; 1; 0; 0; 0; 0; (-1)]);
   ("nkm2"%string, [2; 1; 0; 1; 0; 0; 0]);
   ("l2b"%string, [2; 1; 0; 1; 0; 0; 0]);
   ("lb2"%string, [2; 1; 1; (-1); 0; 0; 2]);
   ("2sk2"%string, [2; 2; (-4); 0; 0; 0; 0]);
   ("2t2"%string, [2; 2; (-4); 0; 0; 2; 0]);
   ("s2-2"%string, [2; 2; (-4); 0; 0; 0; 0]);
   ("s2-1"%string, [2; 2; (-3); 0; 0; 0; 0]);
   ("t2"%string, [2; 2; (-3); 0; 0; 1; 0]);
   ("kp2"%string, [2; 2; (-2); 0; 0; 0; 0]);
   ("s2r"%string, [2; 2; (-2); 0; 0; 0; 0]);
   ("s2"%string, [2; 2; (-2); 0; 0; 0; 0]);
   ("r2"%string, [2; 2; (-1); 0; 0; (-1); 2]);
   ("s2+1"%string, [2; 2; (-1); 0; 0; 0; 0]);
   ("s2+2"%string, [2; 2; 0; 0; 0; 0; 0]);
   ("k2"%string, [2; 2; 0; 0; 0; 0; 0]);
   ("kb2"%string, [2; 2; 1; 0; 0; 0; 0]);
   ("2ks2"%string, [2; 2; 2; 0; 0; 0; 0]);
   ("2pmn2"%string, [2; 3; (-4); (-1); 0; 0; 2]);
   ("msnu2"%string, [2; 3; (-4); 1; 0; 0; 0]);
   ("msn2"%string, [2; 3; (-2); (-1); 0; 0; 0]);
   ("zeta2"%string, [2; 3; (-2); 1; 0; 0; 0]);
   ("eta2"%string, [2; 3; 0; (-1); 0; 0; 0]);
   ("mkn2"%string, [2; 3; 0; (-1); 0; 0; 0]);
   ("kj2"%string, [2; 3; 0; (-1); 0; 0; 2]);
   ("2kmsn2"%string, [2; 3; 2; (-1); 0; 0; 0]);
   ("2km(sn)2"%string, [2; 3; 2; (-1); 0; 0; 0]);
   ("2sm2"%string, [2; 4; (-4); 0; 0; 0; 0]);
   ("2ms2n2"%string, [2; 4; (-2); (-2); 0; 0; 0]);
   ("skm2"%string, [2; 4; (-2); 0; 0; 0; 0]);
   ("2j2"%string, [2; 4; 0; (-2); 0; 0; 2]);
   ("2k2"%string, [2; 4; 0; 0; 0; 0; 0]);
   ("2snu2"%string, [2; 5; (-6); 1; 0; 0; 0]);
   ("3(sm)n2"%string, [2; 5; (-6); 1; 0; 0; 0]);
   ("2sn2"%string, [2; 5; (-4); (-1); 0; 0; 0]);
   ("skn2"%string, [2; 5; (-2); (-1); 0; 0; 0]);
   ("2kn2"%string, [2; 5; 0; (-1); 0; 0; 0]);
   ("3s2m2"%string, [2; 6; (-6); 0; 0; 0; 0]);
   ("2sk2m2"%string, [2; 6; (-4); 0; 0; 0; 0]);
   ("2oq3"%string, [3; (-4); 0; 1; 0; 0; 1]);
   ("o3"%string, [3; (-3); 0; 0; 0; 0; 1]);
   ("nq3"%string, [3; (-3); 0; 2; 0; 0; (-1)]);
   ("muo3"%string, [3; (-3); 2; 0; 0; 0; (-1)]);
   ("mq3"%string, [3; (-2); 0; 1; 0; 0; (-1)]);
   ("no3"%string, [3; (-2); 0; 1; 0; 0; (-1)]);
   ("mnp3"%string, [3; (-2); 2; 1; 0; 0; 1]);
   ("2op3"%string, [3; (-1); (-2); 0; 0; 0; 1]);
   ("2os3"%string, [3; (-1); (-1); 0; 0; 0; 0]);
   ("qms3"%string, [3; (-1); (-1); 2; 0; 0; 2]);
   ("mo3-"%string, [3; (-1); 0; 0; (-1); 0; (-1)]);
   ("mo3"%string, [3; (-1); 0; 0; 0; 0; (-1)]);
   ("mo3+"%string, [3; (-1); 0; 0; 1; 0; (-1)]);
   ("2mk3"%string, [3; (-1); 0; 0; 0; 0; (-1)]);
   ("e3n"%string, [3; (-1); 0; 1; (-1); 0; 0]);
   ("e3"%string, [3; (-1); 0; 1; 0; 0; 2]);
   ("2no3"%string, [3; (-1); 0; 2; 0; 0; 1]);
   ("2nkm3"%string, [3; (-1); 0; 2; 0; 0; 1]);
   ("2ms3"%string, [3; (-1); 1; 0; 0; 0; 2]);
   ("2mp3"%string, [3; (-1); 2; 0; 0; 0; 1]);
   ("ns3"%string, [3; 0; (-1); 1; 0; 0; 2]);
   ("2oj3"%string, [3; 0; 0; (-1); 0; 0; (-1)]);
   ("2mm3"%string, [3; 0; 0; (-1); 0; 0; (-1)]);
   ("m3"%string, [3; 0; 0; 0; 0; 0; 0]);
   ("m3'"%string, [3; 0; 0; 0; 0; 0; 2]);
   ("nk3"%string, [3; 0; 0; 1; 0; 0; 0]);
   ("mp3"%string, [3; 1; (-2); 0; 0; 0; (-1)]);
   ("so3"%string, [3; 1; (-2); 0; 0; 0; (-1)]);
   ("lambda3"%string, [3; 1; (-2); 1; 0; 0; 0]);
   ("ms3"%string, [3; 1; (-1); 0; 0; 0; 2]);
   ("pjrho3"%string, [3; 1; 0; (-2); 0; 0; (-1)]);
   ("l3"%string, [3; 1; 0; (-1); 0; 0; 0]);
   ("mk3-"%string, [3; 1; 0; 0; (-1); 0; 1]);
   ("mk3"%string, [3; 1; 0; 0; 0; 0; 1]);
   ("mk3+"%string, [3; 1; 0; 0; 1; 0; 1]);
   ("l3b"%string, [3; 1; 0; 1; 0; 0; 2]);
   ("mks3"%string, [3; 1; 1; 0; 0; 0; 2]);
   ("mkp3"%string, [3; 1; 2; 0; 0; 0; 1]);
   ("nso3"%string, [3; 2; (-2); 1; 0; 0; 1]);
   ("2mq3"%string, [3; 2; 0; (-1); 0; 0; 1]);
   ("f3"%string, [3; 2; 0; 0; 0; 0; 2]);
   ("j3"%string, [3; 2; 0; 0; 0; 0; 2]);
   ("2t3"%string, [3; 3; (-5); 0; 0; 0; 2]);
   ("t3"%string, [3; 3; (-4); 0; 0; 0; 2]);
   ("sp3"%string, [3; 3; (-4); 0; 0; 0; (-1)]);
   ("s3"%string, [3; 3; (-3); 0; 0; 0; 0]);
   ("s3'"%string, [3; 3; (-3); 0; 0; 0; 2]);
   ("r3"%string, [3; 3; (-2); 0; 0; 0; 2]);
   ("sk3"%string, [3; 3; (-2); 0; 0; 0; 1]);
   ("2r3"%string, [3; 3; (-1); 0; 0; 0; 2]);
   ("k3"%string, [3; 3; 0; 0; 0; 0; (-1)]);
   ("2so3"%string, [3; 5; (-4); 0; 0; 0; 1]);
   ("2jp3"%string, [3; 5; (-2); (-2); 0; 0; 1]);
   ("kso3"%string, [3; 5; (-2); 0; 0; 0; 1]);
   ("2jk3"%string, [3; 5; (-1); (-2); 0; 0; 0]);
   ("2ko3"%string, [3; 5; 0; 0; 0; 0; 1]);
   ("2sq3"%string, [3; 6; (-4); (-1); 0; 0; 1]);
   ("o4"%string, [4; (-4); 0; 0; 0; 0; 0]);
   ("2qm4"%string, [4; (-4); 0; 2; 0; 0; 2]);
   ("4ms4"%string, [4; (-4); 4; 0; 0; 0; 0]);
   ("4m2s4"%string, [4; (-4); 4; 0; 0; 0; 0]);
   ("2mnk4"%string, [4; (-3); 0; 1; 0; 0; 0]);
   ("moq4"%string, [4; (-3); 0; 1; 0; 0; 2]);
   ("2mns4"%string, [4; (-3); 4; (-1); 0; 0; 0]);
   ("2mnus4"%string, [4; (-3); 4; (-1); 0; 0; 0]);
   ("3mk4"%string, [4; (-2); 0; 0; 0; 0; 0]);
   ("2om4"%string, [4; (-2); 0; 0; 0; 0; 2]);
   ("n4"%string, [4; (-2); 0; 2; 0; 0; 0]);
   ("3ms4"%string, [4; (-2); 2; 0; 0; 0; 0]);
   ("msnk4"%string, [4; (-1); (-2); 1; 0; 0; 0]);
   ("mpq4"%string, [4; (-1); (-2); 1; 0; 0; 2]);
   ("mn4"%string, [4; (-1); 0; 1; 0; 0; 0]);
   ("mnu4"%string, [4; (-1); 2; (-1); 0; 0; 0]);
   ("2mls4"%string, [4; (-1); 2; (-1); 0; 0; 2]);
   ("mnks4"%string, [4; (-1); 2; 1; 0; 0; 0]);
   ("2msk4"%string, [4; 0; (-2); 0; 0; 0; 0]);
   ("mop4"%string, [4; 0; (-2); 0; 0; 0; 2]);
   ("ma4"%string, [4; 0; (-1); 0; 0; 0; 0]);
   ("m4"%string, [4; 0; 0; 0; 0; 0; 0]);
   ("mb4"%string, [4; 0; 1; 0; 0; 0; 0]);
   ("2mks4"%string, [4; 0; 2; 0; 0; 0; 0]);
   ("sn4"%string, [4; 1; (-2); 1; 0; 0; 0]);
   ("3mn4"%string, [4; 1; 0; (-1); 0; 0; 0]);
   ("ml4"%string, [4; 1; 0; (-1); 0; 0; 2]);
   ("nk4"%string, [4; 1; 0; 1; 0; 0; 0]);
   ("2smk4"%string, [4; 2; (-4); 0; 0; 0; 0]);
   ("2pm4"%string, [4; 2; (-4); 0; 0; 0; 2]);
   ("mt4"%string, [4; 2; (-3); 0; 0; 1; 0]);
   ("ms4"%string, [4; 2; (-2); 0; 0; 0; 0]);
   ("mr4"%string, [4; 2; (-1); 0; 0; (-1); 2]);
   ("mk4"%string, [4; 2; 0; 0; 0; 0; 0]);
   ("2snm4"%string, [4; 3; (-4); 1; 0; 0; 0]);
   ("2msn4"%string, [4; 3; (-2); (-1); 0; 0; 0]);
   ("sl4"%string, [4; 3; (-2); (-1); 0; 0; 2]);
   ("2mkn4"%string, [4; 3; 0; (-1); 0; 0; 0]);
   ("mkj4"%string, [4; 3; 0; (-1); 0; 0; 2]);
   ("2t4"%string, [4; 4; (-6); 0; 0; 0; 0]);
   ("t4"%string, [4; 4; (-5); 0; 0; 0; 0]);
   ("st4"%string, [4; 4; (-5); 0; 0; 1; 0]);
   ("s4"%string, [4; 4; (-4); 0; 0; 0; 0]);
   ("r4"%string, [4; 4; (-3); 0; 0; 0; 0]);
   ("2r4"%string, [4; 4; (-2); 0; 0; 0; 0]);
   ("sk4"%string, [4; 4; (-2); 0; 0; 0; 0]);
   ("3ks4"%string, [4; 4; (-1); 0; 0; 0; (-1)]);
   ("k4"%string, [4; 4; 0; 0; 0; 0; 0]);
   ("3sm4"%string, [4; 6; (-6); 0; 0; 0; 0]);
   ("2(kj)4"%string, [4; 6; 0; (-2); 0; 0; 2]);
   ("2no5"%string, [5; (-3); 0; 2; 0; 0; (-1)]);
   ("mno5"%string, [5; (-2); 0; 1; 0; 0; (-1)]);
   ("2mq5"%string, [5; (-2); 0; 1; 0; 0; (-1)]);
   ("2nkms5"%string, [5; (-2); 2; 2; 0; 0; 1]);
   ("2mo5"%string, [5; (-1); 0; 0; 0; 0; (-1)]);
   ("mnm5"%string, [5; (-1); 0; 1; 0; 0; 2]);
   ("2nk5"%string, [5; (-1); 0; 2; 0; 0; 1]);
   ("3ms5"%string, [5; (-1); 1; 0; 0; 0; 2]);
   ("3mp5"%string, [5; (-1); 2; 0; 0; 0; 1]);
   ("nso5"%string, [5; 0; (-2); 1; 0; 0; (-1)]);
   ("m5"%string, [5; 0; 0; 0; 0; 0; 2]);
   ("mnk5"%string, [5; 0; 0; 1; 0; 0; 1]);
   ("mb5"%string, [5; 0; 1; 0; 0; 0; 1]);
   ("mso5"%string, [5; 1; (-2); 0; 0; 0; (-1)]);
   ("2mp5"%string, [5; 1; (-2); 0; 0; 0; (-1)]);
   ("2ms5"%string, [5; 1; (-1); 0; 0; 0; 2]);
   ("2mk5"%string, [5; 1; 0; 0; 0; 0; 1]);
   ("nks5"%string, [5; 2; (-1); 1; 0; 0; 2]);
   ("nsk5"%string, [5; 2; (-2); (-1); 0; 0; 1]);
   ("msm5"%string, [5; 2; (-2); 0; 0; 0; 2]);
   ("snk5"%string, [5; 2; (-2); 1; 0; 0; (-1)]);
   ("3mq5"%string, [5; 2; 0; (-1); 0; 0; 1]);
   ("msp5"%string, [5; 3; (-4); 0; 0; 0; (-1)]);
   ("msk5"%string, [5; 3; (-2); 0; 0; 0; 1]);
   ("3km5"%string, [5; 3; 0; 0; 0; 0; (-1)]);
   ("2sp5"%string, [5; 5; (-6); 0; 0; 0; (-1)]);
   ("t5"%string, [5; 5; (-6); 0; 0; 0; 0]);
   ("s5"%string, [5; 5; (-5); 0; 0; 0; 0]);
   ("r5"%string, [5; 5; (-4); 0; 0; 0; 0]);
   ("2sk5"%string, [5; 5; (-4); 0; 0; 0; 1]);
   ("k5"%string, [5; 5; 0; 0; 0; 0; 1]);
   ("o6"%string, [6; (-6); 0; 0; 0; 0; 2]);
   ("2(mn)k6"%string, [6; (-4); 0; 2; 0; 0; 0]);
   ("5mks6"%string, [6; (-4); 2; 0; 0; 0; 0]);
   ("2(mn)s6"%string, [6; (-4); 2; 2; 0; 0; 0]);
   ("5m2s6"%string, [6; (-4); 4; 0; 0; 0; 0]);
   ("3mnk6"%string, [6; (-3); 0; 1; 0; 0; 0]);
   ("n6"%string, [6; (-3); 0; 3; 0; 0; 0]);
   ("3mns6"%string, [6; (-3); 2; 1; 0; 0; 0]);
   ("2nmls6"%string, [6; (-3); 2; 1; 0; 0; 2]);
   ("3nks6"%string, [6; (-3); 2; 3; 0; 0; 0]);
   ("3mnus6"%string, [6; (-3); 4; (-1); 0; 0; 0]);
   ("4mk6"%string, [6; (-2); 0; 0; 0; 0; 0]);
   ("2nm6"%string, [6; (-2); 0; 2; 0; 0; 0]);
   ("m2n6"%string, [6; (-2); 0; 2; 0; 0; 0]);
   ("4ms6"%string, [6; (-2); 2; 0; 0; 0; 0]);
   ("2mlns6"%string, [6; (-2); 2; 0; 0; 0; 2]);
   ("2mnls6"%string, [6; (-2); 2; 0; 0; 0; 2]);
   ("2nmks6"%string, [6; (-2); 2; 2; 0; 0; 0]);
   ("2msnk6"%string, [6; (-1); (-2); 1; 0; 0; 0]);
   ("2mn6"%string, [6; (-1); 2; (-1); 0; 0; 0]);
   ("2mnu6"%string, [6; (-1); 2; (-1); 0; 0; 0]);
   ("3mls6"%string, [6; (-1); 2; (-1); 0; 0; 2]);
   ("2mno6"%string, [6; (-1); 2; (-1); 0; 0; 0]);
   ("2mnks6"%string, [6; (-1); 2; 1; 0; 0; 0]);
   ("3msk6"%string, [6; 0; (-2); 0; 0; 0; 0]);
   ("ma6"%string, [6; 0; (-1); 0; 0; 0; 0]);
   ("m6"%string, [6; 0; 0; 0; 0; 0; 0]);
   ("2nk6"%string, [6; 0; 0; 2; 0; 0; 0]);
   ("mb6"%string, [6; 0; 1; 0; 0; 0; 0]);
   ("3mks6"%string, [6; 0; 2; 0; 0; 0; 0]);
   ("msn6"%string, [6; 1; (-2); 1; 0; 0; 0]);
   ("4mn6"%string, [6; 1; 0; (-1); 0; 0; 0]);
   ("2ml6"%string, [6; 1; 0; (-1); 0; 0; 2]);
   ("mnk6"%string, [6; 1; 0; 1; 0; 0; 0]);
   ("mkn6"%string, [6; 1; 0; 1; 0; 0; 0]);
   ("mknu6"%string, [6; 1; 2; (-1); 0; 0; 0]);
   ("2(ms)k6"%string, [6; 2; (-4); 0; 0; 0; 0]);
   ("2mt6"%string, [6; 2; (-3); 0; 0; 1; 0]);
   ("2ms6"%string, [6; 2; (-2); 0; 0; 0; 0]);
   ("2mr6"%string, [6; 2; (-1); 0; 0; (-1); 2]);
   ("2mk6"%string, [6; 2; 0; 0; 0; 0; 0]);
   ("2sn6"%string, [6; 3; (-4); 1; 0; 0; 0]);
   ("3msn6"%string, [6; 3; (-2); (-1); 0; 0; 0]);
   ("msl6"%string, [6; 3; (-2); (-1); 0; 0; 2]);
   ("snk6"%string, [6; 3; (-2); 1; 0; 0; 0]);
   ("mkl6"%string, [6; 3; 0; (-1); 0; 0; 2]);
   ("3mkn6"%string, [6; 3; 0; (-1); 0; 0; 0]);
   ("2sm6"%string, [6; 4; (-4); 0; 0; 0; 0]);
   ("msk6"%string, [6; 4; (-2); 0; 0; 0; 0]);
   ("2km6"%string, [6; 4; 0; 0; 0; 0; 0]);
   ("2(ms)n6"%string, [6; 5; (-4); (-1); 0; 0; 0]);
   ("2mskn6"%string, [6; 5; (-2); (-1); 0; 0; 0]);
   ("2t6"%string, [6; 6; (-8); 0; 0; 0; 0]);
   ("t6"%string, [6; 6; (-7); 0; 0; 0; 0]);
   ("s6"%string, [6; 6; (-6); 0; 0; 0; 0]);
   ("r6"%string, [6; 6; (-5); 0; 0; 0; 0]);
   ("2r6"%string, [6; 6; (-4); 0; 0; 0; 0]);
   ("2sk6"%string, [6; 6; (-4); 0; 0; 0; 0]);
   ("k6"%string, [6; 6; 0; 0; 0; 0; 0]);
   ("4sm6"%string, [6; 8; (-8); 0; 0; 0; 0]);
   ("2mno7"%string, [7; (-2); 0; 1; 0; 0; (-1)]);
   ("4mk7"%string, [7; (-1); 0; 0; 0; 0; (-1)]);
   ("3mo7"%string, [7; (-1); 0; 0; 0; 0; (-1)]);
   ("2nmk7"%string, [7; (-1); 0; 2; 0; 0; 1]);
   ("m7"%string, [7; 0; 0; 1; 0; 0; 1]);
   ("3mp7"%string, [7; 1; (-2); 0; 0; 0; (-1)]);
   ("2mso7"%string, [7; 1; (-2); 0; 0; 0; (-1)]);
   ("3mk7"%string, [7; 1; 0; 0; 0; 0; 1]);
   ("2msk7"%string, [7; 3; (-2); 0; 0; 0; 1]);
   ("msko7"%string, [7; 3; (-2); 0; 0; 0; (-1)]);
   ("2t7"%string, [7; 7; (-9); 0; 0; 0; 0]);
   ("3sp7"%string, [7; 7; (-8); 0; 0; 0; (-1)]);
   ("t7"%string, [7; 7; (-8); 0; 0; 0; 0]);
   ("s7"%string, [7; 7; (-7); 0; 0; 0; 0]);
   ("r7"%string, [7; 7; (-6); 0; 0; 0; 0]);
   ("3sk7"%string, [7; 7; (-6); 0; 0; 0; 1]);
   ("2r7"%string, [7; 7; (-5); 0; 0; 0; 0]);
   ("3r7"%string, [7; 7; (-4); 0; 0; 0; 0]);
   ("4r7"%string, [7; 7; (-3); 0; 0; 0; 0]);
   ("k7"%string, [7; 7; 0; 0; 0; 0; 1]);
   ("3m2ns8"%string, [8; (-4); 2; 2; 0; 0; 0]);
   ("4mns8"%string, [8; (-3); 2; 1; 0; 0; 0]);
   ("5mk8"%string, [8; (-2); 0; 0; 0; 0; 0]);
   ("2mn8"%string, [8; (-2); 0; 2; 0; 0; 0]);
   ("2(mn)8"%string, [8; (-2); 0; 2; 0; 0; 0]);
   ("5ms8"%string, [8; (-2); 2; 0; 0; 0; 0]);
   ("3mn8"%string, [8; (-1); 2; (-1); 0; 0; 0]);
   ("3mnu8"%string, [8; (-1); 2; (-1); 0; 0; 0]);
   ("4mls8"%string, [8; (-1); 2; (-1); 0; 0; 2]);
   ("ma8"%string, [8; 0; (-1); 0; 0; 0; 0]);
   ("m8"%string, [8; 0; 0; 0; 0; 0; 0]);
   ("mb8"%string, [8; 0; 1; 0; 0; 0; 0]);
   ("2msn8"%string, [8; 1; (-2); 1; 0; 0; 0]);
   ("3ml8"%string, [8; 1; 0; (-1); 0; 0; 2]);
   ("2mnk8"%string, [8; 1; 0; 1; 0; 0; 0]);
   ("3mt8"%string, [8; 2; (-3); 0; 0; 1; 0]);
   ("3ms8"%string, [8; 2; (-2); 0; 0; 0; 0]);
   ("3mk8"%string, [8; 2; 0; 0; 0; 0; 0]);
   ("2smn8"%string, [8; 3; (-4); 1; 0; 0; 0]);
   ("2msl8"%string, [8; 3; (-2); (-1); 0; 0; 2]);
   ("msnk8"%string, [8; 3; (-2); 1; 0; 0; 0]);
   ("4msn8"%string, [8; 3; 0; (-1); 0; 0; 0]);
   ("2(ms)8"%string, [8; 4; (-4); 0; 0; 0; 0]);
   ("2msk8"%string, [8; 4; (-2); 0; 0; 0; 0]);
   ("2(mk)8"%string, [8; 4; 0; 0; 0; 0; 0]);
   ("s8"%string, [8; 8; (-8); 0; 0; 0; 0]);
   ("k8"%string, [8; 8; 0; 0; 0; 0; 0]);
   ("4mo9"%string, [9; (-1); 0; 0; 0; 0; (-1)]);
   ("2(mn)k9"%string, [9; (-1); 0; 2; 0; 0; 1]);
   ("2m2nk9"%string, [9; (-1); 0; 2; 0; 0; 1]);
   ("3mnk9"%string, [9; 0; 0; 1; 0; 0; 1]);
   ("4mp9"%string, [9; 1; (-2); 0; 0; 0; (-1)]);
   ("4ms9"%string, [9; 1; (-1); 0; 0; 0; 2]);
   ("4mk9"%string, [9; 1; 0; 0; 0; 0; 1]);
   ("3msk9"%string, [9; 3; (-2); 0; 0; 0; 1]);
   ("s9"%string, [9; 9; (-9); 0; 0; 0; 0]);
   ("k9"%string, [9; 9; 0; 0; 0; 0; 1]);
   ("4mn10"%string, [10; (-1); 0; 1; 0; 0; 0]);
   ("m10"%string, [10; 0; 0; 0; 0; 0; 0]);
   ("3msn10"%string, [10; 1; (-2); 1; 0; 0; 0]);
   ("4ms10"%string, [10; 2; (-2); 0; 0; 0; 0]);
   ("4mk10"%string, [10; 2; 0; 0; 0; 0; 0]);
   ("3msl10"%string, [10; 3; (-2); (-1); 0; 0; 2]);
   ("3m2s10"%string, [10; 4; (-4); 0; 0; 0; 0]);
   ("3msk10"%string, [10; 4; (-2); 0; 0; 0; 0]);
   ("s10"%string, [10; 10; (-10); 0; 0; 0; 0]);
   ("4msk11"%string, [11; 3; (-2); 0; 0; 0; 1]);
   ("s11"%string, [11; 11; (-11); 0; 0; 0; 0]);
   ("5mn12"%string, [12; (-1); 0; 1; 0; 0; 0]);
   ("m12"%string, [12; 0; 0; 0; 0; 0; 0]);
   ("4msn12"%string, [12; 1; (-2); 1; 0; 0; 0]);
   ("4mns12"%string, [12; 1; (-2); 1; 0; 0; 0]);
   ("5ms12"%string, [12; 2; (-2); 0; 0; 0; 0]);
   ("4msl12"%string, [12; 3; (-2); (-1); 0; 0; 2]);
   ("4m2s12"%string, [12; 4; (-4); 0; 0; 0; 0]);
   ("s12"%string, [12; 12; (-12); 0; 0; 0; 0]);
   ("m14"%string, [14; 0; 0; 0; 0; 0; 0]);
   ("5msn14"%string, [14; 1; (-2); 1; 0; 0; 0]);
   ("6ms14"%string, [14; 2; (-2); 0; 0; 0; 0]);
   ("5m2s14"%string, [14; 4; (-4); 0; 0; 0; 0])
  ].
