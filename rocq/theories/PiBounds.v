(** Decimal bounds on pi (from the Machin-like formula of the standard library). *)
From Coq Require Import Reals Lra Machin Ratan.
Open Scope R_scope.

Lemma PI_bounds : 3.14159265358 < PI < 3.1415926536.
Proof.
  destruct (PI_2_3_7_ineq 5) as [A B].
  cbn [sum_f_R0 Nat.mul Nat.add] in A, B.
  unfold tg_alt, PI_2_3_7_tg, Ratan_seq in A, B.
  cbn [Nat.mul Nat.add pow INR] in A, B.
  lra.
Qed.
