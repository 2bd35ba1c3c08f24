(** Generated by tools/gen_nodal.py from pyTMD/arguments.py (nodal, lines 547-1170):
    one entry per branch of the if/elif chain, in order, with the line of its test. *)
From Coq Require Import Reals String List Bool ZArith.
From Verif Require Import RBase AstroModel NodalBase.
Import ListNotations.
Open Scope string_scope.
Open Scope R_scope.

Definition branches : list branch := [
  (* arguments.py:569 *)
  (InTup ["msf"; "tau1"; "p1"; "theta1"; "lambda2"; "s2"], fun o => otis o,
   fun e => Terms (0) (1));
  (* arguments.py:572 *)
  (InTup ["p1"; "s2"], fun o => fes o || perth3 o,
   fun e => Terms (0) (1));
  (* arguments.py:575 *)
  (InTup ["mm"; "msm"], fun o => otis o,
   fun e => Terms (0) (1 - 0.130 * cosn e));
  (* arguments.py:578 *)
  (InTup ["mm"; "msm"], fun o => fes o,
   fun e => Terms (0) ((2 / 3 - (sin (incl e)) ^ 2) / 0.5021));
  (* arguments.py:581 *)
  (InTup ["mm"; "msm"], fun o => true,
   fun e => Terms ((- (0.0534)) * sin2p e - 0.0219 * s2pn e) (1 - 0.1308 * cosn e - 0.0534 * cos2p e - 0.0219 * c2pn e));
  (* arguments.py:584 *)
  (InTup ["mf"; "msqm"; "msp"; "mq"; "mtm"], fun o => otis o,
   fun e => Direct (1.043 + 0.414 * cosn e) (dtr * ((- (23.7)) * sinn e + 2.7 * sin2n e - 0.4 * sin3n e)));
  (* arguments.py:588 *)
  (InTup ["mf"; "msqm"; "msp"; "mq"; "mt"; "mtm"], fun o => fes o,
   fun e => Direct ((sin (incl e)) ^ 2 / 0.1578) ((- (2)) * xi e));
  (* arguments.py:592 *)
  (InTup ["mf"; "msqm"; "msp"; "mq"], fun o => true,
   fun e => Terms ((- (0.04324)) * sin2p e - 0.41465 * sinn e - 0.03873 * sin2n e) (1 + 0.04324 * cos2p e + 0.41465 * cosn e + 0.03873 * cos2n e));
  (* arguments.py:595 *)
  (InTup ["mt"], fun o => otis o,
   fun e => Terms ((- (0.203)) * sinn e - 0.040 * sin2n e) (1 + 0.203 * cosn e + 0.040 * cos2n e));
  (* arguments.py:598 *)
  (InTup ["mt"; "mtm"], fun o => true,
   fun e => Terms ((- (0.018)) * sin2p e - 0.4145 * sinn e - 0.040 * sin2n e) (1 + 0.018 * cos2p e + 0.4145 * cosn e + 0.040 * cos2n e));
  (* arguments.py:601 *)
  (InTup ["msf"], fun o => fes o,
   fun e => Direct (1) (2 * xi e - 2 * nu e));
  (* arguments.py:605 *)
  (InTup ["msf"], fun o => true,
   fun e => Terms (0.137 * sinn e) (1));
  (* arguments.py:609 *)
  (InTup ["mst"], fun o => true,
   fun e => Terms ((- (0.380)) * sin2p e - 0.413 * sinn e - 0.037 * sin2n e) (1 + 0.380 * cos2p e + 0.413 * cosn e + 0.037 * cos2n e));
  (* arguments.py:612 *)
  (InTup ["o1"; "so3"; "op2"], fun o => otis o,
   fun e => Direct (sqrt (((0.189 * sinn e - 0.0058 * sin2n e)) ^ 2 + ((1 + 0.189 * cosn e - 0.0058 * cos2n e)) ^ 2)) (dtr * (10.8 * sinn e - 1.3 * sin2n e + 0.2 * sin3n e)));
  (* arguments.py:618 *)
  (InTup ["o1"; "so3"; "op2"; "2q1"; "q1"; "rho1"; "sigma1"], fun o => fes o,
   fun e => Direct (sin (incl e) * (cos (incl e / 2)) ^ 2 / 0.38) (2 * xi e - nu e));
  (* arguments.py:622 *)
  (InTup ["q1"; "o1"], fun o => perth3 o,
   fun e => Direct (1.009 + 0.187 * cosn e - 0.015 * cos2n e) (dtr * (10.8 * sinn e - 1.3 * sin2n e)));
  (* arguments.py:626 *)
  (InTup ["o1"; "so3"; "op2"], fun o => true,
   fun e => Terms (0.1886 * sinn e - 0.0058 * sin2n e - 0.0065 * sin2p e) (1 + 0.1886 * cosn e - 0.0058 * cos2n e - 0.0065 * cos2p e));
  (* arguments.py:629 *)
  (InTup ["2q1"; "q1"; "rho1"; "sigma1"], fun o => otis o,
   fun e => Direct (sqrt ((1 + 0.188 * cosn e) ^ 2 + (0.188 * sinn e) ^ 2)) (atan (0.189 * sinn e / (1 + 0.189 * cosn e))));
  (* arguments.py:633 *)
  (InTup ["2q1"; "q1"; "rho1"; "sigma1"], fun o => true,
   fun e => Terms (0.1886 * sinn e) (1 + 0.1886 * cosn e));
  (* arguments.py:636 *)
  (InTup ["tau1"], fun o => true,
   fun e => Terms (0.219 * sinn e) (1 - 0.219 * cosn e));
  (* arguments.py:639 *)
  (InTup ["beta1"], fun o => true,
   fun e => Terms (0.226 * sinn e) (1 + 0.226 * cosn e));
  (* arguments.py:642 *)
  (InTup ["m1"], fun o => String.eqb (m1opt o) "Doodson",
   fun e => Terms (sinp e + 0.2 * spn e) (2 * cosp e + 0.4 * cpn e));
  (* arguments.py:646 *)
  (InTup ["m1"], fun o => String.eqb (m1opt o) "Ray",
   fun e => Terms (0.64 * sinp e + 0.135 * spn e) (1.36 * cosp e + 0.267 * cpn e));
  (* arguments.py:650 *)
  (InTup ["m1"], fun o => String.eqb (m1opt o) "perth5",
   fun e => Terms ((- (0.2294)) * sinn e - 0.3594 * sin2p e - 0.0664 * s2pn e) (1 + 0.1722 * cosn e + 0.3594 * cos2p e + 0.0664 * c2pn e));
  (* arguments.py:654 *)
  (InTup ["chi1"], fun o => otis o,
   fun e => Terms ((- (0.221)) * sinn e) (1 + 0.221 * cosn e));
  (* arguments.py:657 *)
  (InTup ["chi1"; "theta1"; "j1"], fun o => fes o,
   fun e => Direct (sin (2 * incl e) / 0.7214) (- (nu e)));
  (* arguments.py:661 *)
  (InTup ["chi1"], fun o => true,
   fun e => Terms ((- (0.250)) * sinn e) (1 + 0.193 * cosn e));
  (* arguments.py:664 *)
  (InTup ["p1"], fun o => true,
   fun e => Terms ((- (0.0112)) * sinn e) (1 - 0.0112 * cosn e));
  (* arguments.py:667 *)
  (InTup ["k1"; "sk3"; "2sk5"], fun o => otis o,
   fun e => Terms ((- (0.1554)) * sinn e + 0.0029 * sin2n e) (1 + 0.1158 * cosn e - 0.0029 * cos2n e));
  (* arguments.py:670 *)
  (InTup ["k1"; "sk3"; "2sk5"], fun o => fes o,
   fun e => Direct (sqrt ((0.8965 * (sin (2 * incl e)) ^ 2) + (0.6001 * sin (2 * incl e) * cos (nu e)) + 0.1006)) (- (nu_prime e)));
  (* arguments.py:676 *)
  (InTup ["k1"], fun o => perth3 o,
   fun e => Direct (1.006 + 0.115 * cosn e - 0.009 * cos2n e) (dtr * ((- (8.9)) * sinn e + 0.7 * sin2n e)));
  (* arguments.py:680 *)
  (InTup ["k1"; "sk3"; "2sk5"], fun o => true,
   fun e => Terms ((- (0.1554)) * sinn e + 0.0031 * sin2n e) (1 + 0.1158 * cosn e - 0.0028 * cos2n e));
  (* arguments.py:683 *)
  (InTup ["j1"; "theta1"], fun o => true,
   fun e => Terms ((- (0.227)) * sinn e) (1 + 0.169 * cosn e));
  (* arguments.py:686 *)
  (InTup ["oo1"; "ups1"], fun o => otis o,
   fun e => Terms ((- (0.640)) * sinn e - 0.134 * sin2n e) (1 + 0.640 * cosn e + 0.134 * cos2n e));
  (* arguments.py:689 *)
  (InTup ["oo1"; "ups1"], fun o => fes o,
   fun e => Direct (sin (incl e) * (sin (incl e / 2)) ^ 2 / 0.01640) ((- (2)) * xi e - nu e));
  (* arguments.py:693 *)
  (InTup ["oo1"; "ups1"], fun o => true,
   fun e => Terms ((- (0.640)) * sinn e - 0.134 * sin2n e - 0.150 * sin2p e) (1 + 0.640 * cosn e + 0.134 * cos2n e + 0.150 * cos2p e));
  (* arguments.py:696 *)
  (InTup ["m2"; "2n2"; "mu2"; "n2"; "nu2"; "lambda2"; "ms4"; "eps2"; "2sm6"; "2sn6"; "mp1"; "mp3"; "sn4"], fun o => fes o,
   fun e => Direct ((cos (incl e / 2)) ^ 4 / 0.9154) (2 * xi e - 2 * nu e));
  (* arguments.py:701 *)
  (InTup ["m2"; "n2"], fun o => perth3 o,
   fun e => Direct (1 - 0.037 * cosn e) (dtr * ((- (2.1)) * sinn e)));
  (* arguments.py:705 *)
  (InTup ["m2"; "2n2"; "mu2"; "n2"; "nu2"; "lambda2"; "ms4"; "eps2"; "2sm6"; "2sn6"; "mp1"; "mp3"; "sn4"], fun o => true,
   fun e => Terms ((- (0.03731)) * sinn e + 0.00052 * sin2n e) (1 - 0.03731 * cosn e + 0.00052 * cos2n e));
  (* arguments.py:709 *)
  (InTup ["l2"; "sl4"], fun o => otis o,
   fun e => Terms ((- (0.25)) * sin2p e - 0.11 * s2pn e - 0.04 * sinn e) (1 - 0.25 * cos2p e - 0.11 * c2pn e - 0.04 * cosn e));
  (* arguments.py:712 *)
  (InTup ["l2"; "sl4"], fun o => fes o,
   fun e => Direct (ra1 e * (cos (incl e / 2)) ^ 4 / 0.9154) (2 * xi e - 2 * nu e - rr e));
  (* arguments.py:716 *)
  (InTup ["l2"; "sl4"], fun o => true,
   fun e => Terms ((- (0.25)) * sin2p e - 0.11 * s2pn e - 0.037 * sinn e) (1 - 0.25 * cos2p e - 0.11 * c2pn e - 0.037 * cosn e));
  (* arguments.py:719 *)
  (InTup ["l2b"], fun o => true,
   fun e => Terms (0.441 * sinn e) (1 + 0.441 * cosn e));
  (* arguments.py:723 *)
  (InTup ["k2"; "sk4"; "2sk6"; "kp1"], fun o => otis o,
   fun e => Terms ((- (0.3108)) * sinn e - 0.0324 * sin2n e) (1 + 0.2852 * cosn e + 0.0324 * cos2n e));
  (* arguments.py:726 *)
  (InTup ["k2"; "sk4"; "2sk6"; "kp1"], fun o => fes o,
   fun e => Direct (sqrt ((19.0444 * (sin (incl e)) ^ 4) + (2.7702 * (sin (incl e)) ^ 2 * cos (2 * nu e)) + 0.0981)) ((- (2)) * nu_sec e));
  (* arguments.py:732 *)
  (InTup ["k2"], fun o => perth3 o,
   fun e => Direct (1.024 + 0.286 * cosn e + 0.008 * cos2n e) (dtr * ((- (17.7)) * sinn e + 0.7 * sin2n e)));
  (* arguments.py:736 *)
  (InTup ["k2"; "sk4"; "2sk6"; "kp1"], fun o => true,
   fun e => Terms ((- (0.3108)) * sinn e - 0.0324 * sin2n e) (1 + 0.2853 * cosn e + 0.0324 * cos2n e));
  (* arguments.py:739 *)
  (InTup ["gamma2"], fun o => true,
   fun e => Terms (0.147 * s2np e) (1 + 0.147 * c2np e));
  (* arguments.py:742 *)
  (InTup ["delta2"], fun o => true,
   fun e => Terms (0.505 * sin2p e + 0.505 * sinn e - 0.165 * sin2n e) (1 - 0.505 * cos2p e - 0.505 * cosn e + 0.165 * cos2n e));
  (* arguments.py:745 *)
  (InTup ["eta2"; "zeta2"], fun o => fes o,
   fun e => Direct ((sin (incl e)) ^ 2 / 0.1565) ((- (2)) * nu e));
  (* arguments.py:749 *)
  (InTup ["eta2"; "zeta2"], fun o => true,
   fun e => Terms ((- (0.436)) * sinn e) (1 + 0.436 * cosn e));
  (* arguments.py:752 *)
  (InTup ["s2"], fun o => true,
   fun e => Terms (0.00225 * sinn e) (1 + 0.00225 * cosn e));
  (* arguments.py:755 *)
  (InTup ["m1'"], fun o => true,
   fun e => Terms ((- (0.01815)) * sinn e) (1 - 0.27837 * cosn e));
  (* arguments.py:759 *)
  (InTup ["q1'"], fun o => true,
   fun e => Terms (0.3915 * sinn e + 0.033 * sin2n e + 0.061 * sin2p e) (1 + 0.3915 * cosn e + 0.033 * cos2n e + 0.06 * cos2p e));
  (* arguments.py:763 *)
  (InTup ["j1'"], fun o => true,
   fun e => Terms ((- (0.438)) * sinn e - 0.033 * sin2n e) (1 + 0.372 * cosn e + 0.033 * cos2n e));
  (* arguments.py:767 *)
  (InTup ["2n2'"], fun o => true,
   fun e => Terms (0.166 * sinn e) (1 + 0.166 * cosn e));
  (* arguments.py:771 *)
  (InTup ["n2'"], fun o => true,
   fun e => Terms (0.1705 * sinn e - 0.0035 * sin2n e - 0.0176 * sin2p e) (1 + 0.1705 * cosn e - 0.0035 * cos2n e - 0.0176 * cos2p e));
  (* arguments.py:775 *)
  (InStr "l2'", fun o => true,
   fun e => Terms ((- (0.2495)) * sinn e) (1 + 0.1315 * cosn e));
  (* arguments.py:779 *)
  (InTup ["m3"], fun o => fes o,
   fun e => Direct ((cos (incl e / 2)) ^ 6 / 0.8758) (3 * xi e - 3 * nu e));
  (* arguments.py:783 *)
  (InTup ["m3"; "e3"], fun o => true,
   fun e => Terms ((- (0.05644)) * sinn e) (1 - 0.05644 * cosn e));
  (* arguments.py:787 *)
  (InTup ["j3"; "f3"], fun o => true,
   fun e => Terms ((- (0.464)) * sinn e - 0.052 * sin2n e) (1 + 0.387 * cosn e + 0.052 * cos2n e));
  (* arguments.py:790 *)
  (InTup ["l3"], fun o => true,
   fun e => Terms ((- (0.373)) * sin2p e - 0.164 * s2pn e) (1 - 0.373 * cos2p e - 0.164 * c2pn e));
  (* arguments.py:793 *)
  (InTup ["mfdw"], fun o => true,
   fun e => Direct (1.043 + 0.414 * cosn e) (dtr * ((- (23.7)) * sinn e + 2.7 * sin2n e - 0.4 * sin3n e)));
  (* arguments.py:798 *)
  (InTup ["so1"; "2so3"; "2po1"], fun o => true,
   fun e => Compound [("o1", 1%nat, (-1)%Z)]);
  (* arguments.py:805 *)
  (InTup ["o3"], fun o => true,
   fun e => Compound [("o1", 3%nat, (3)%Z)]);
  (* arguments.py:812 *)
  (InStr "2k2", fun o => true,
   fun e => Compound [("k1", 2%nat, (2)%Z)]);
  (* arguments.py:819 *)
  (InStr "tk1", fun o => true,
   fun e => Compound [("k1", 1%nat, (-1)%Z)]);
  (* arguments.py:826 *)
  (InStr "2oop1", fun o => true,
   fun e => Compound [("oo1", 2%nat, (2)%Z)]);
  (* arguments.py:833 *)
  (InStr "oq2", fun o => true,
   fun e => Compound [("o1", 1%nat, (1)%Z); ("q1", 1%nat, (1)%Z)]);
  (* arguments.py:840 *)
  (InStr "2oq1", fun o => true,
   fun e => Compound [("o1", 2%nat, (2)%Z); ("q1", 1%nat, (-1)%Z)]);
  (* arguments.py:847 *)
  (InStr "ko2", fun o => true,
   fun e => Compound [("o1", 1%nat, (1)%Z); ("k1", 1%nat, (1)%Z)]);
  (* arguments.py:854 *)
  (InTup ["opk1"], fun o => true,
   fun e => Compound [("o1", 1%nat, (1)%Z); ("k1", 1%nat, (-1)%Z)]);
  (* arguments.py:861 *)
  (InTup ["2ook1"], fun o => true,
   fun e => Compound [("oo1", 2%nat, (2)%Z); ("k1", 1%nat, (-1)%Z)]);
  (* arguments.py:868 *)
  (InTup ["kj2"], fun o => true,
   fun e => Compound [("k1", 1%nat, (1)%Z); ("j1", 1%nat, (1)%Z)]);
  (* arguments.py:875 *)
  (InStr "kjq1", fun o => true,
   fun e => Compound [("k1", 1%nat, (1)%Z); ("j1", 1%nat, (1)%Z); ("q1", 1%nat, (-1)%Z)]);
  (* arguments.py:882 *)
  (InTup ["k3"], fun o => true,
   fun e => Compound [("k1", 1%nat, (1)%Z); ("k2", 1%nat, (1)%Z)]);
  (* arguments.py:889 *)
  (InTup ["m4"; "mn4"; "mns2"; "2ms2"; "mnus2"; "mmus2"; "2ns2"; "n4"; "mnu4"; "mmu4"; "2mt6"; "2ms6"; "msn6"; "mns6"; "2mr6"; "msmu6"; "2mp3"; "2ms3"; "2mp5"; "2msp7"; "2(ms)8"; "2ms8"], fun o => true,
   fun e => Compound [("m2", 2%nat, (2)%Z)]);
  (* arguments.py:898 *)
  (InTup ["msn2"; "snm2"; "nsm2"], fun o => true,
   fun e => Compound [("m2", 2%nat, (0)%Z)]);
  (* arguments.py:905 *)
  (InTup ["mmun2"; "2mn2"], fun o => true,
   fun e => Compound [("m2", 3%nat, (1)%Z)]);
  (* arguments.py:912 *)
  (InTup ["2sm2"], fun o => true,
   fun e => Compound [("m2", 1%nat, (-1)%Z)]);
  (* arguments.py:919 *)
  (InTup ["m6"; "2mn6"; "2mnu6"; "2mmu6"; "2nm6"; "mnnu6"; "mnmu6"; "3ms8"; "3mp7"; "2msn8"; "3ms5"; "3mp5"; "3ms4"; "3m2s2"; "3m2s10"; "2mn2s2"], fun o => true,
   fun e => Compound [("m2", 3%nat, (3)%Z)]);
  (* arguments.py:927 *)
  (InTup ["m8"; "ma8"; "3mn8"; "3mnu8"; "3mmu8"; "2mn8"; "2(mn):8"; "3msn10"; "4ms10"; "2(mn)S10"; "4m2s12"], fun o => true,
   fun e => Compound [("m2", 4%nat, (4)%Z)]);
  (* arguments.py:935 *)
  (InTup ["m10"; "4mn10"; "5ms12"; "4msn12"; "4mns12"], fun o => true,
   fun e => Compound [("m2", 5%nat, (5)%Z)]);
  (* arguments.py:942 *)
  (InTup ["m12"; "5mn12"; "6ms14"; "5msn14"], fun o => true,
   fun e => Compound [("m2", 6%nat, (6)%Z)]);
  (* arguments.py:949 *)
  (InTup ["m14"], fun o => true,
   fun e => Compound [("m2", 7%nat, (7)%Z)]);
  (* arguments.py:956 *)
  (InTup ["mo3"; "no3"; "mso5"], fun o => true,
   fun e => Compound [("m2", 1%nat, (1)%Z); ("o1", 1%nat, (1)%Z)]);
  (* arguments.py:963 *)
  (InTup ["no1"; "nso3"], fun o => true,
   fun e => Compound [("m2", 1%nat, (1)%Z); ("o1", 1%nat, (-1)%Z)]);
  (* arguments.py:970 *)
  (InTup ["mq3"; "nq3"], fun o => true,
   fun e => Compound [("m2", 1%nat, (1)%Z); ("q1", 1%nat, (1)%Z)]);
  (* arguments.py:977 *)
  (InTup ["2mq3"], fun o => true,
   fun e => Compound [("m2", 2%nat, (2)%Z); ("q1", 1%nat, (-1)%Z)]);
  (* arguments.py:984 *)
  (InTup ["2no3"], fun o => true,
   fun e => Compound [("m2", 2%nat, (2)%Z); ("o1", 1%nat, (-1)%Z)]);
  (* arguments.py:991 *)
  (InTup ["2mo5"; "2no5"; "mno5"; "2mso7"; "2(ms):o9"], fun o => true,
   fun e => Compound [("m2", 2%nat, (2)%Z); ("o1", 1%nat, (1)%Z)]);
  (* arguments.py:998 *)
  (InTup ["2mno7"; "3mo7"], fun o => true,
   fun e => Compound [("m2", 3%nat, (3)%Z); ("o1", 1%nat, (1)%Z)]);
  (* arguments.py:1005 *)
  (InTup ["mk3"; "nk3"; "msk5"; "nsk5"], fun o => true,
   fun e => Compound [("m2", 1%nat, (1)%Z); ("k1", 1%nat, (1)%Z)]);
  (* arguments.py:1012 *)
  (InTup ["mnk5"; "2mk5"; "2nk5"; "2msk7"], fun o => true,
   fun e => Compound [("m2", 2%nat, (2)%Z); ("k1", 1%nat, (1)%Z)]);
  (* arguments.py:1019 *)
  (InTup ["2mk3"], fun o => true,
   fun e => Compound [("m2", 2%nat, (2)%Z); ("k1", 1%nat, (-1)%Z)]);
  (* arguments.py:1026 *)
  (InTup ["3mk7"; "2mnk7"; "2nmk7"; "3nk7"; "3msk9"], fun o => true,
   fun e => Compound [("m2", 3%nat, (3)%Z); ("k1", 1%nat, (1)%Z)]);
  (* arguments.py:1033 *)
  (InTup ["3msk7"], fun o => true,
   fun e => Compound [("m2", 3%nat, (3)%Z); ("k1", 1%nat, (-1)%Z)]);
  (* arguments.py:1040 *)
  (InTup ["4mk9"; "3mnk9"; "2m2nk9"; "2(mn):k9"; "3nmk9"; "4msk11"], fun o => true,
   fun e => Compound [("m2", 4%nat, (4)%Z); ("k1", 1%nat, (1)%Z)]);
  (* arguments.py:1047 *)
  (InTup ["3km5"], fun o => true,
   fun e => Compound [("m2", 1%nat, (1)%Z); ("k1", 3%nat, (3)%Z)]);
  (* arguments.py:1054 *)
  (InTup ["mk4"; "nk4"; "mks2"], fun o => true,
   fun e => Compound [("m2", 1%nat, (1)%Z); ("k2", 1%nat, (1)%Z)]);
  (* arguments.py:1061 *)
  (InTup ["msk2"; "2smk4"; "msk6"; "snk6"], fun o => true,
   fun e => Compound [("m2", 1%nat, (1)%Z); ("k2", 1%nat, (-1)%Z)]);
  (* arguments.py:1068 *)
  (InTup ["mnk6"; "2mk6"; "2msk8"; "msnk8"], fun o => true,
   fun e => Compound [("m2", 2%nat, (2)%Z); ("k2", 1%nat, (1)%Z)]);
  (* arguments.py:1075 *)
  (InTup ["mnk2"; "2mk2"], fun o => true,
   fun e => Compound [("m2", 2%nat, (2)%Z); ("k2", 1%nat, (-1)%Z)]);
  (* arguments.py:1082 *)
  (InTup ["mkn2"; "nkm2"], fun o => true,
   fun e => Compound [("m2", 2%nat, (0)%Z); ("k2", 1%nat, (1)%Z)]);
  (* arguments.py:1089 *)
  (InTup ["skm2"], fun o => true,
   fun e => Compound [("m2", 1%nat, (-1)%Z); ("k2", 1%nat, (1)%Z)]);
  (* arguments.py:1096 *)
  (InTup ["3mk8"; "2mnk8"], fun o => true,
   fun e => Compound [("m2", 3%nat, (3)%Z); ("k2", 1%nat, (1)%Z)]);
  (* arguments.py:1103 *)
  (InTup ["m2(ks):2"], fun o => true,
   fun e => Compound [("m2", 1%nat, (1)%Z); ("k2", 2%nat, (2)%Z)]);
  (* arguments.py:1110 *)
  (InTup ["2ms2k2"], fun o => true,
   fun e => Compound [("m2", 2%nat, (2)%Z); ("k2", 2%nat, (-2)%Z)]);
  (* arguments.py:1117 *)
  (InTup ["mko5"; "msko7"], fun o => true,
   fun e => Compound [("m2", 1%nat, (1)%Z); ("k2", 1%nat, (1)%Z); ("o1", 1%nat, (1)%Z)]);
  (* arguments.py:1124 *)
  (InTup ["ml4"; "msl6"], fun o => true,
   fun e => Compound [("m2", 1%nat, (1)%Z); ("l2", 1%nat, (1)%Z)]);
  (* arguments.py:1131 *)
  (InTup ["2ml2"], fun o => true,
   fun e => Compound [("m2", 2%nat, (2)%Z); ("l2", 1%nat, (-1)%Z)]);
  (* arguments.py:1138 *)
  (InTup ["2ml6"; "2ml2s2"; "2mls4"; "2msl8"], fun o => true,
   fun e => Compound [("m2", 2%nat, (2)%Z); ("l2", 1%nat, (1)%Z)]);
  (* arguments.py:1145 *)
  (InTup ["2nmls6"; "3mls6"; "2mnls6"; "3ml8"; "2mnl8"; "3msl10"], fun o => true,
   fun e => Compound [("m2", 3%nat, (3)%Z); ("l2", 1%nat, (1)%Z)]);
  (* arguments.py:1152 *)
  (InTup ["4msl12"], fun o => true,
   fun e => Compound [("m2", 4%nat, (4)%Z); ("l2", 1%nat, (1)%Z)])
].

(** arguments.py:1161: the final else branch *)
Definition default_rule : rule := Terms (0) (1).
