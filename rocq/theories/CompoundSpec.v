(** Specification of compound (shallow-water) tides for C14 and C58.

    A compound tide is named after the waves it is built from: "2mk3" is
    2 M2 - K1, "msn6" is M2 + S2 + N2, and so on.  The tables give, for each name,
    the signed multiplicities of the parent waves.  They were written from the
    names (the signs are those for which the species adds up), not from the code
    of [arguments.nodal]. *)
From Coq Require Import String List ZArith Reals.
Import ListNotations.
Open Scope string_scope.
Open Scope Z_scope.

Notation parts := (list (string * Z)) (only parsing).

(** Compound tides that have their own branch in [nodal] *)
Definition compound_handled : list (string * parts) := [
  ("so1", [("s2", 1); ("o1", (-1))]);
  ("2so3", [("s2", 2); ("o1", (-1))]);
  ("2po1", [("p1", 2); ("o1", (-1))]);
  ("o3", [("o1", 3)]);
  ("tk1", [("t2", 1); ("k1", (-1))]);
  ("2oop1", [("oo1", 2); ("p1", (-1))]);
  ("oq2", [("o1", 1); ("q1", 1)]);
  ("2oq1", [("o1", 2); ("q1", (-1))]);
  ("ko2", [("k1", 1); ("o1", 1)]);
  ("opk1", [("o1", 1); ("p1", 1); ("k1", (-1))]);
  ("2ook1", [("oo1", 2); ("k1", (-1))]);
  ("kj2", [("k1", 1); ("j1", 1)]);
  ("kjq1", [("k1", 1); ("j1", 1); ("q1", (-1))]);
  ("m4", [("m2", 2)]);
  ("mn4", [("m2", 1); ("n2", 1)]);
  ("mns2", [("m2", 1); ("n2", 1); ("s2", (-1))]);
  ("2ms2", [("m2", 2); ("s2", (-1))]);
  ("mnus2", [("m2", 1); ("nu2", 1); ("s2", (-1))]);
  ("2ns2", [("n2", 2); ("s2", (-1))]);
  ("n4", [("n2", 2)]);
  ("mnu4", [("m2", 1); ("nu2", 1)]);
  ("2mt6", [("m2", 2); ("t2", 1)]);
  ("2ms6", [("m2", 2); ("s2", 1)]);
  ("msn6", [("m2", 1); ("s2", 1); ("n2", 1)]);
  ("2mr6", [("m2", 2); ("r2", 1)]);
  ("2mp3", [("m2", 2); ("p1", (-1))]);
  ("2ms3", [("m2", 2); ("s1", (-1))]);
  ("2mp5", [("m2", 2); ("p1", 1)]);
  ("2(ms)8", [("m2", 2); ("s2", 2)]);
  ("msn2", [("m2", 1); ("s2", 1); ("n2", (-1))]);
  ("snm2", [("s2", 1); ("n2", 1); ("m2", (-1))]);
  ("mmun2", [("m2", 1); ("mu2", 1); ("n2", (-1))]);
  ("2mn2", [("m2", 2); ("n2", (-1))]);
  ("2sm2", [("s2", 2); ("m2", (-1))]);
  ("m6", [("m2", 3)]);
  ("2mn6", [("m2", 2); ("n2", 1)]);
  ("2mnu6", [("m2", 2); ("nu2", 1)]);
  ("2nm6", [("n2", 2); ("m2", 1)]);
  ("3ms8", [("m2", 3); ("s2", 1)]);
  ("3mp7", [("m2", 3); ("p1", 1)]);
  ("2msn8", [("m2", 2); ("s2", 1); ("n2", 1)]);
  ("3ms5", [("m2", 3); ("s1", (-1))]);
  ("3mp5", [("m2", 3); ("p1", (-1))]);
  ("3ms4", [("m2", 3); ("s2", (-1))]);
  ("3m2s2", [("m2", 3); ("s2", (-2))]);
  ("3m2s10", [("m2", 3); ("s2", 2)]);
  ("2mn2s2", [("m2", 2); ("n2", 1); ("s2", (-2))]);
  ("m8", [("m2", 4)]);
  ("3mn8", [("m2", 3); ("n2", 1)]);
  ("3mnu8", [("m2", 3); ("nu2", 1)]);
  ("3msn10", [("m2", 3); ("s2", 1); ("n2", 1)]);
  ("4ms10", [("m2", 4); ("s2", 1)]);
  ("4m2s12", [("m2", 4); ("s2", 2)]);
  ("m10", [("m2", 5)]);
  ("4mn10", [("m2", 4); ("n2", 1)]);
  ("5ms12", [("m2", 5); ("s2", 1)]);
  ("4msn12", [("m2", 4); ("s2", 1); ("n2", 1)]);
  ("4mns12", [("m2", 4); ("n2", 1); ("s2", 1)]);
  ("m12", [("m2", 6)]);
  ("5mn12", [("m2", 5); ("n2", 1)]);
  ("6ms14", [("m2", 6); ("s2", 1)]);
  ("5msn14", [("m2", 5); ("s2", 1); ("n2", 1)]);
  ("m14", [("m2", 7)]);
  ("mo3", [("m2", 1); ("o1", 1)]);
  ("no3", [("n2", 1); ("o1", 1)]);
  ("mso5", [("m2", 1); ("s2", 1); ("o1", 1)]);
  ("no1", [("n2", 1); ("o1", (-1))]);
  ("nso3", [("n2", 1); ("s2", 1); ("o1", (-1))]);
  ("mq3", [("m2", 1); ("q1", 1)]);
  ("nq3", [("n2", 1); ("q1", 1)]);
  ("2mq3", [("m2", 2); ("q1", (-1))]);
  ("2no3", [("n2", 2); ("o1", (-1))]);
  ("2mo5", [("m2", 2); ("o1", 1)]);
  ("2no5", [("n2", 2); ("o1", 1)]);
  ("mno5", [("m2", 1); ("n2", 1); ("o1", 1)]);
  ("2mso7", [("m2", 2); ("s2", 1); ("o1", 1)]);
  ("2mno7", [("m2", 2); ("n2", 1); ("o1", 1)]);
  ("3mo7", [("m2", 3); ("o1", 1)]);
  ("mk3", [("m2", 1); ("k1", 1)]);
  ("nk3", [("n2", 1); ("k1", 1)]);
  ("msk5", [("m2", 1); ("s2", 1); ("k1", 1)]);
  ("nsk5", [("n2", 1); ("s2", 1); ("k1", 1)]);
  ("mnk5", [("m2", 1); ("n2", 1); ("k1", 1)]);
  ("2mk5", [("m2", 2); ("k1", 1)]);
  ("2nk5", [("n2", 2); ("k1", 1)]);
  ("2msk7", [("m2", 2); ("s2", 1); ("k1", 1)]);
  ("2mk3", [("m2", 2); ("k1", (-1))]);
  ("3mk7", [("m2", 3); ("k1", 1)]);
  ("2nmk7", [("n2", 2); ("m2", 1); ("k1", 1)]);
  ("3msk9", [("m2", 3); ("s2", 1); ("k1", 1)]);
  ("4mk9", [("m2", 4); ("k1", 1)]);
  ("3mnk9", [("m2", 3); ("n2", 1); ("k1", 1)]);
  ("2m2nk9", [("m2", 2); ("n2", 2); ("k1", 1)]);
  ("4msk11", [("m2", 4); ("s2", 1); ("k1", 1)]);
  ("3km5", [("k1", 3); ("m2", 1)]);
  ("mk4", [("m2", 1); ("k2", 1)]);
  ("nk4", [("n2", 1); ("k2", 1)]);
  ("mks2", [("m2", 1); ("k2", 1); ("s2", (-1))]);
  ("msk2", [("m2", 1); ("s2", 1); ("k2", (-1))]);
  ("2smk4", [("s2", 2); ("m2", 1); ("k2", (-1))]);
  ("mnk6", [("m2", 1); ("n2", 1); ("k2", 1)]);
  ("2mk6", [("m2", 2); ("k2", 1)]);
  ("2msk8", [("m2", 2); ("s2", 1); ("k2", 1)]);
  ("msnk8", [("m2", 1); ("s2", 1); ("n2", 1); ("k2", 1)]);
  ("mnk2", [("m2", 1); ("n2", 1); ("k2", (-1))]);
  ("2mk2", [("m2", 2); ("k2", (-1))]);
  ("mkn2", [("m2", 1); ("k2", 1); ("n2", (-1))]);
  ("nkm2", [("n2", 1); ("k2", 1); ("m2", (-1))]);
  ("skm2", [("s2", 1); ("k2", 1); ("m2", (-1))]);
  ("3mk8", [("m2", 3); ("k2", 1)]);
  ("2mnk8", [("m2", 2); ("n2", 1); ("k2", 1)]);
  ("2ms2k2", [("m2", 2); ("s2", 1); ("k2", (-2))]);
  ("msko7", [("m2", 1); ("s2", 1); ("k2", 1); ("o1", 1)]);
  ("ml4", [("m2", 1); ("l2", 1)]);
  ("msl6", [("m2", 1); ("s2", 1); ("l2", 1)]);
  ("2ml2", [("m2", 2); ("l2", (-1))]);
  ("2ml6", [("m2", 2); ("l2", 1)]);
  ("2ml2s2", [("m2", 2); ("l2", 1); ("s2", (-2))]);
  ("2mls4", [("m2", 2); ("l2", 1); ("s2", (-1))]);
  ("2msl8", [("m2", 2); ("s2", 1); ("l2", 1)]);
  ("2nmls6", [("n2", 2); ("m2", 1); ("l2", 1); ("s2", (-1))]);
  ("3mls6", [("m2", 3); ("l2", 1); ("s2", (-1))]);
  ("2mnls6", [("m2", 2); ("n2", 1); ("l2", 1); ("s2", (-1))]);
  ("3ml8", [("m2", 3); ("l2", 1)]);
  ("3msl10", [("m2", 3); ("s2", 1); ("l2", 1)]);
  ("4msl12", [("m2", 4); ("s2", 1); ("l2", 1)])
].

(** Compound tides that share the branch of their lunar parent *)
Definition compound_as_linear : list (string * parts) := [
  ("mp1", [("m2", 1); ("p1", (-1))]);
  ("kp1", [("k2", 1); ("p1", (-1))]);
  ("op2", [("o1", 1); ("p1", 1)]);
  ("mp3", [("m2", 1); ("p1", 1)]);
  ("so3", [("s2", 1); ("o1", 1)]);
  ("sk3", [("s2", 1); ("k1", 1)]);
  ("sn4", [("s2", 1); ("n2", 1)]);
  ("ms4", [("m2", 1); ("s2", 1)]);
  ("sl4", [("s2", 1); ("l2", 1)]);
  ("sk4", [("s2", 1); ("k2", 1)]);
  ("2sk5", [("s2", 2); ("k1", 1)]);
  ("2sn6", [("s2", 2); ("n2", 1)]);
  ("2sm6", [("s2", 2); ("m2", 1)]);
  ("2sk6", [("s2", 2); ("k2", 1)])
].

(** Compound tides whose branch subtracts instead of adding *)
Definition compound_wrong_sign : list (string * parts) := [
  ("msk6", [("m2", 1); ("s2", 1); ("k2", 1)]);
  ("snk6", [("s2", 1); ("n2", 1); ("k2", 1)])
].

(** Tabulated compound tides without any branch in [nodal] *)
Definition compound_unhandled : list (string * parts) := [
  ("sn0", [("s2", 1); ("n2", (-1))]);
  ("2smn0", [("s2", 2); ("m2", (-1)); ("n2", (-1))]);
  ("2qj1", [("q1", 2); ("j1", (-1))]);
  ("2qk1", [("q1", 2); ("k1", (-1))]);
  ("2qs1", [("q1", 2); ("s1", (-1))]);
  ("2qp1", [("q1", 2); ("p1", (-1))]);
  ("2oj1", [("o1", 2); ("j1", (-1))]);
  ("2ok1", [("o1", 2); ("k1", (-1))]);
  ("np1", [("n2", 1); ("p1", (-1))]);
  ("ms1", [("m2", 1); ("s1", (-1))]);
  ("pqo1", [("p1", 1); ("q1", 1); ("o1", (-1))]);
  ("2pk1", [("p1", 2); ("k1", (-1))]);
  ("opq1", [("o1", 1); ("p1", 1); ("q1", (-1))]);
  ("mq1", [("m2", 1); ("q1", (-1))]);
  ("kpq1", [("k1", 1); ("p1", 1); ("q1", (-1))]);
  ("kq1", [("k2", 1); ("q1", (-1))]);
  ("2jo1", [("j1", 2); ("o1", (-1))]);
  ("2jq1", [("j1", 2); ("q1", (-1))]);
  ("2nk2", [("n2", 2); ("k2", (-1))]);
  ("3m(sk)2", [("m2", 3); ("s2", (-1)); ("k2", (-1))]);
  ("3mks2", [("m2", 3); ("k2", (-1)); ("s2", (-1))]);
  ("mnk2s2", [("m2", 1); ("n2", 1); ("k2", 1); ("s2", (-2))]);
  ("2nm2", [("n2", 2); ("m2", (-1))]);
  ("2mk2s2", [("m2", 2); ("k2", 1); ("s2", (-2))]);
  ("nsk2", [("n2", 1); ("s2", 1); ("k2", (-1))]);
  ("snk2", [("s2", 1); ("n2", 1); ("k2", (-1))]);
  ("3m(sn)2", [("m2", 3); ("s2", (-1)); ("n2", (-1))]);
  ("nks2", [("n2", 1); ("k2", 1); ("s2", (-1))]);
  ("nkp2", [("n2", 1); ("k1", 1); ("p1", (-1))]);
  ("mkl2s2", [("m2", 1); ("k2", 1); ("l2", 1); ("s2", (-2))]);
  ("2kn2s2", [("k2", 2); ("n2", 1); ("s2", (-2))]);
  ("m2(ks)2", [("m2", 1); ("k2", 2); ("s2", (-2))]);
  ("2snmk2", [("s2", 2); ("n2", 1); ("m2", (-1)); ("k2", (-1))]);
  ("2sn(mk)2", [("s2", 2); ("n2", 1); ("m2", (-1)); ("k2", (-1))]);
  ("2sk2", [("s2", 2); ("k2", (-1))]);
  ("kp2", [("k1", 1); ("p1", 1)]);
  ("2ks2", [("k2", 2); ("s2", (-1))]);
  ("2pmn2", [("p1", 2); ("m2", 1); ("n2", (-1))]);
  ("msnu2", [("m2", 1); ("s2", 1); ("nu2", (-1))]);
  ("2kmsn2", [("k2", 2); ("m2", 1); ("s2", (-1)); ("n2", (-1))]);
  ("2km(sn)2", [("k2", 2); ("m2", 1); ("s2", (-1)); ("n2", (-1))]);
  ("2ms2n2", [("m2", 2); ("s2", 1); ("n2", (-2))]);
  ("2j2", [("j1", 2)]);
  ("2snu2", [("s2", 2); ("nu2", (-1))]);
  ("3(sm)n2", [("s2", 3); ("m2", (-3)); ("n2", 1)]);
  ("2sn2", [("s2", 2); ("n2", (-1))]);
  ("skn2", [("s2", 1); ("k2", 1); ("n2", (-1))]);
  ("2kn2", [("k2", 2); ("n2", (-1))]);
  ("3s2m2", [("s2", 3); ("m2", (-2))]);
  ("2sk2m2", [("s2", 2); ("k2", 1); ("m2", (-2))]);
  ("2oq3", [("o1", 2); ("q1", 1)]);
  ("muo3", [("mu2", 1); ("o1", 1)]);
  ("mnp3", [("m2", 1); ("n2", 1); ("p1", (-1))]);
  ("2op3", [("o1", 2); ("p1", 1)]);
  ("2os3", [("o1", 2); ("s1", 1)]);
  ("2nkm3", [("n2", 2); ("k1", 1); ("m2", (-1))]);
  ("ns3", [("n2", 1); ("s1", 1)]);
  ("2oj3", [("o1", 2); ("j1", 1)]);
  ("ms3", [("m2", 1); ("s1", 1)]);
  ("mks3", [("m2", 1); ("k2", 1); ("s1", (-1))]);
  ("mkp3", [("m2", 1); ("k2", 1); ("p1", (-1))]);
  ("2jp3", [("j1", 2); ("p1", 1)]);
  ("kso3", [("k2", 1); ("s2", 1); ("o1", (-1))]);
  ("2ko3", [("k2", 2); ("o1", (-1))]);
  ("2sq3", [("s2", 2); ("q1", (-1))]);
  ("o4", [("o1", 4)]);
  ("2qm4", [("q1", 2); ("m2", 1)]);
  ("4m2s4", [("m2", 4); ("s2", (-2))]);
  ("2mnk4", [("m2", 2); ("n2", 1); ("k2", (-1))]);
  ("moq4", [("m2", 1); ("o1", 1); ("q1", 1)]);
  ("2mnus4", [("m2", 2); ("nu2", 1); ("s2", (-1))]);
  ("3mk4", [("m2", 3); ("k2", (-1))]);
  ("2om4", [("o1", 2); ("m2", 1)]);
  ("msnk4", [("m2", 1); ("s2", 1); ("n2", 1); ("k2", (-1))]);
  ("mpq4", [("m2", 1); ("p1", 1); ("q1", 1)]);
  ("mnks4", [("m2", 1); ("n2", 1); ("k2", 1); ("s2", (-1))]);
  ("2msk4", [("m2", 2); ("s2", 1); ("k2", (-1))]);
  ("mop4", [("m2", 1); ("o1", 1); ("p1", 1)]);
  ("2mks4", [("m2", 2); ("k2", 1); ("s2", (-1))]);
  ("3mn4", [("m2", 3); ("n2", (-1))]);
  ("2pm4", [("p1", 2); ("m2", 1)]);
  ("mt4", [("m2", 1); ("t2", 1)]);
  ("mr4", [("m2", 1); ("r2", 1)]);
  ("2snm4", [("s2", 2); ("n2", 1); ("m2", (-1))]);
  ("2msn4", [("m2", 2); ("s2", 1); ("n2", (-1))]);
  ("2mkn4", [("m2", 2); ("k2", 1); ("n2", (-1))]);
  ("mkj4", [("m2", 1); ("k1", 1); ("j1", 1)]);
  ("k4", [("k2", 2)]);
  ("3sm4", [("s2", 3); ("m2", (-1))]);
  ("2mq5", [("m2", 2); ("q1", 1)]);
  ("nso5", [("n2", 1); ("s2", 1); ("o1", 1)]);
  ("2ms5", [("m2", 2); ("s1", 1)]);
  ("nks5", [("n2", 1); ("k2", 1); ("s1", 1)]);
  ("3mq5", [("m2", 3); ("q1", (-1))]);
  ("msp5", [("m2", 1); ("s2", 1); ("p1", 1)]);
  ("o6", [("o1", 6)]);
  ("2(mn)k6", [("m2", 2); ("n2", 2); ("k2", (-1))]);
  ("5mks6", [("m2", 5); ("k2", (-1)); ("s2", (-1))]);
  ("2(mn)s6", [("m2", 2); ("n2", 2); ("s2", (-1))]);
  ("5m2s6", [("m2", 5); ("s2", (-2))]);
  ("3mnk6", [("m2", 3); ("n2", 1); ("k2", (-1))]);
  ("n6", [("n2", 3)]);
  ("3mns6", [("m2", 3); ("n2", 1); ("s2", (-1))]);
  ("3nks6", [("n2", 3); ("k2", 1); ("s2", (-1))]);
  ("3mnus6", [("m2", 3); ("nu2", 1); ("s2", (-1))]);
  ("4mk6", [("m2", 4); ("k2", (-1))]);
  ("m2n6", [("m2", 1); ("n2", 2)]);
  ("4ms6", [("m2", 4); ("s2", (-1))]);
  ("2mlns6", [("m2", 2); ("l2", 1); ("n2", 1); ("s2", (-1))]);
  ("2nmks6", [("n2", 2); ("m2", 1); ("k2", 1); ("s2", (-1))]);
  ("2msnk6", [("m2", 2); ("s2", 1); ("n2", 1); ("k2", (-1))]);
  ("2mnks6", [("m2", 2); ("n2", 1); ("k2", 1); ("s2", (-1))]);
  ("3msk6", [("m2", 3); ("s2", 1); ("k2", (-1))]);
  ("2nk6", [("n2", 2); ("k2", 1)]);
  ("3mks6", [("m2", 3); ("k2", 1); ("s2", (-1))]);
  ("4mn6", [("m2", 4); ("n2", (-1))]);
  ("mkn6", [("m2", 1); ("k2", 1); ("n2", 1)]);
  ("mknu6", [("m2", 1); ("k2", 1); ("nu2", 1)]);
  ("2(ms)k6", [("m2", 2); ("s2", 2); ("k2", (-1))]);
  ("3msn6", [("m2", 3); ("s2", 1); ("n2", (-1))]);
  ("mkl6", [("m2", 1); ("k2", 1); ("l2", 1)]);
  ("3mkn6", [("m2", 3); ("k2", 1); ("n2", (-1))]);
  ("2km6", [("k2", 2); ("m2", 1)]);
  ("2(ms)n6", [("m2", 2); ("s2", 2); ("n2", (-1))]);
  ("2mskn6", [("m2", 2); ("s2", 1); ("k2", 1); ("n2", (-1))]);
  ("k6", [("k2", 3)]);
  ("4sm6", [("s2", 4); ("m2", (-1))]);
  ("4mk7", [("m2", 4); ("k1", (-1))]);
  ("3sk7", [("s2", 3); ("k1", 1)]);
  ("3m2ns8", [("m2", 3); ("n2", 2); ("s2", (-1))]);
  ("4mns8", [("m2", 4); ("n2", 1); ("s2", (-1))]);
  ("5mk8", [("m2", 5); ("k2", (-1))]);
  ("2(mn)8", [("m2", 2); ("n2", 2)]);
  ("5ms8", [("m2", 5); ("s2", (-1))]);
  ("4mls8", [("m2", 4); ("l2", 1); ("s2", (-1))]);
  ("3mt8", [("m2", 3); ("t2", 1)]);
  ("2smn8", [("s2", 2); ("m2", 1); ("n2", 1)]);
  ("2(mk)8", [("m2", 2); ("k2", 2)]);
  ("k8", [("k2", 4)]);
  ("4mo9", [("m2", 4); ("o1", 1)]);
  ("2(mn)k9", [("m2", 2); ("n2", 2); ("k1", 1)]);
  ("4mp9", [("m2", 4); ("p1", 1)]);
  ("4ms9", [("m2", 4); ("s1", 1)]);
  ("4mk10", [("m2", 4); ("k2", 1)]);
  ("3msk10", [("m2", 3); ("s2", 1); ("k2", 1)]);
  ("5m2s14", [("m2", 5); ("s2", 2)])
].

(** Tabulated compound tides of purely solar waves *)
Definition compound_solar : list (string * parts) := [
  ("rp1", [("r2", 1); ("p1", (-1))]);
  ("sp3", [("s2", 1); ("p1", 1)]);
  ("st4", [("s2", 1); ("t2", 1)]);
  ("s4", [("s2", 2)]);
  ("2sp5", [("s2", 2); ("p1", 1)]);
  ("s6", [("s2", 3)]);
  ("3sp7", [("s2", 3); ("p1", 1)]);
  ("s8", [("s2", 4)]);
  ("s10", [("s2", 5)]);
  ("s12", [("s2", 6)])
].

(** "o2" is 2 O1 *)
Definition compound_other : list (string * parts) := [
  ("o2", [("o1", 2)])
].

(** Tabulated compound tides whose Doodson coefficients are not those of their parents *)
Definition compound_bad_coefficients : list (string * parts) := [
  ("2ook1", [("oo1", 2); ("k1", (-1))]);
  ("nk3", [("n2", 1); ("k1", 1)]);
  ("nsk5", [("n2", 1); ("s2", 1); ("k1", 1)]);
  ("snk5", [("s2", 1); ("n2", 1); ("k1", 1)]);
  ("2mn6", [("m2", 2); ("n2", 1)]);
  ("3mn8", [("m2", 3); ("n2", 1)]);
  ("2mns4", [("m2", 2); ("n2", 1); ("s2", (-1))]);
  ("4msn8", [("m2", 4); ("s2", 1); ("n2", (-1))]);
  ("2jk3", [("j1", 2); ("k1", 1)]);
  ("2(kj)4", [("k1", 2); ("j1", 2)]);
  ("3ks4", [("k1", 3); ("s1", 1)])
].

Close Scope Z_scope.
Open Scope R_scope.

(** Waves without nodal modulation in the compound conventions (solar), and
    lunar semidiurnal waves that are modulated like M2. *)
Definition solar (x : string) : bool := existsb (String.eqb x) ["s1"; "s2"; "t2"; "r2"; "p1"].
Definition carrier (x : string) : string :=
  if existsb (String.eqb x) ["n2"; "nu2"; "mu2"] then "m2" else x.

(** Product of factors (with multiplicity) and signed sum of angles over the
    parts, for given corrections [uf] (u, f) of the waves. *)
Fixpoint factor (uf : string -> R * R) (l : parts) : R :=
  match l with [] => 1 | (x, k) :: l' => snd (uf x) ^ Z.abs_nat k * factor uf l' end.
Fixpoint angle (uf : string -> R * R) (l : parts) : R :=
  match l with [] => 0 | (x, k) :: l' => IZR k * fst (uf x) + angle uf l' end.

(** The corrections by convention: solar waves contribute nothing and N2, NU2,
    MU2 count as M2. *)
Definition conventional (uf : string -> R * R) (x : string) : R * R :=
  if solar x then (0, 1) else uf (carrier x).
