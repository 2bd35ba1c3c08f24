(** Specification of Legendre polynomials and their derivatives. *)
From Coq Require Import List Reals Lra Lia Psatz Factorial.
Open Scope R_scope.

(** [dleg x l m]: the m-th derivative at x of the Legendre polynomial of degree
    l, by Bonnet's recursion differentiated m times.  [dleg_bonnet] and
    [dleg_derivative] below show that this is what it is. *)
Fixpoint dleg (x : R) (l m : nat) : R :=
  match l with
  | O => match m with O => 1 | _ => 0 end
  | S l' =>
    match l' with
    | O => match m with O => x | S O => 1 | _ => 0 end
    | S l'' =>
      ((2 * INR l' + 1) * (x * dleg x l' m + INR m * dleg x l' (pred m))
       - INR l' * dleg x l'' m) / INR l
    end
  end.

Lemma dleg_SS : forall x l m,
  dleg x (S (S l)) m =
   ((2 * INR (S l) + 1) * (x * dleg x (S l) m + INR m * dleg x (S l) (pred m))
       - INR (S l) * dleg x l m) / INR (S (S l)).
Proof. reflexivity. Qed.

(** (l+2) P_{l+2} = (2l+3) x P_{l+1} - (l+1) P_l, P_0 = 1, P_1 = x *)
Theorem dleg_bonnet : forall x l,
  dleg x 0 0 = 1 /\ dleg x 1 0 = x /\
  (INR l + 2) * dleg x (S (S l)) 0 = (2 * INR l + 3) * x * dleg x (S l) 0 - (INR l + 1) * dleg x l 0.
Proof.
  intros x l; split; [reflexivity|split; [reflexivity|]].
  rewrite dleg_SS, !S_INR; pose proof (pos_INR l); cbn [INR]; field; lra.
Qed.

Theorem dleg_derivative : forall l m x,
  derivable_pt_lim (fun y => dleg y l m) x (dleg x l (S m)).
Proof.
  induction l as [l IH] using lt_wf_ind; intros m x.
  destruct l as [|[|l]].
  - destruct m; cbn [dleg]; [apply derivable_pt_lim_const|apply derivable_pt_lim_const].
  - destruct m as [|[|m]]; cbn [dleg];
      [apply derivable_pt_lim_id|apply derivable_pt_lim_const|apply derivable_pt_lim_const].
  - pose proof (IH (S l) ltac:(lia)) as I1; pose proof (IH l ltac:(lia)) as I0; clear IH.
    assert (E : forall f g a b, (forall y, f y = g y) -> a = b -> derivable_pt_lim g x b ->
      derivable_pt_lim f x a).
    { intros f g a b Hfg -> H eps He; destruct (H eps He) as [d Hd]; exists d.
      intros h Hh Hd'; rewrite !Hfg; auto. }
    pose (f1 := fun y => dleg y (S l) m); pose (f2 := fun y => INR m * dleg y (S l) (pred m)).
    pose (f0 := fun y => dleg y l m).
    assert (D2 : derivable_pt_lim f2 x (INR m * dleg x (S l) m)).
    { unfold f2; destruct m as [|m].
      - cbn [INR pred]; eapply E; [intros y; instantiate (1 := fun _ => 0); cbv beta; ring|instantiate (1 := 0); ring|apply derivable_pt_lim_const].
      - cbn [pred]; apply (derivable_pt_lim_scal (fun y => dleg y (S l) m)), I1. }
    pose proof (derivable_pt_lim_mult id f1 x _ _ (derivable_pt_lim_id x) (I1 m x)) as D1.
    pose proof (derivable_pt_lim_plus _ _ x _ _ D1 D2) as D3.
    pose proof (derivable_pt_lim_scal _ (2 * INR (S l) + 1) x _ D3) as D4.
    pose proof (derivable_pt_lim_scal _ (INR (S l)) x _ (I0 m x)) as D5.
    pose proof (derivable_pt_lim_minus _ _ x _ _ D4 D5) as D6.
    pose proof (derivable_pt_lim_scal _ (/ INR (S (S l))) x _ D6) as D7.
    refine (E _ _ _ _ _ _ D7).
    + intros y; rewrite dleg_SS; unfold mult_real_fct, minus_fct, plus_fct, mult_fct, id, f1, f2.
      unfold Rdiv; ring.
    + rewrite dleg_SS; cbn [pred]; unfold id, f1.
      rewrite !(S_INR m); unfold Rdiv; ring.
Qed.
Print Assumptions dleg_derivative.

(** Recurrences *)
Lemma dleg_mSS : forall x l m,
  (INR l + 2) * dleg x (S (S l)) (S m) =
   (2 * INR l + 3) * (x * dleg x (S l) (S m) + (INR m + 1) * dleg x (S l) m) - (INR l + 1) * dleg x l (S m).
Proof.
  intros; rewrite dleg_SS, !S_INR; cbn [pred INR]; pose proof (pos_INR l); field; lra.
Qed.

Definition recB (x : R) (l : nat) : Prop := forall m,
  x * dleg x (S l) (S m) - dleg x l (S m) = (INR l + 1 - INR m) * dleg x (S l) m.
Definition recA (x : R) (l : nat) : Prop := forall m,
  dleg x (S (S l)) (S m) - dleg x l (S m) = (2 * INR l + 3) * dleg x (S l) m.

Lemma recA_of_B : forall x l, recB x l -> recA x l.
Proof.
  intros x l B m; specialize (B m); pose proof (dleg_mSS x l m) as E; pose proof (pos_INR l).
  apply Rmult_eq_reg_l with (INR l + 2); [|lra].
  rewrite Rmult_minus_distr_l, E.
  replace (x * dleg x (S l) (S m)) with (dleg x l (S m) + (INR l + 1 - INR m) * dleg x (S l) m) by lra.
  ring.
Qed.

Definition recC (x : R) (l : nat) : Prop := forall m,
  dleg x (S l) (S m) - x * dleg x l (S m) = (INR l + 1 + INR m) * dleg x l m.

Lemma recs : forall x l, recB x l /\ recC x l.
Proof.
  intros x l; induction l as [|l [IB IC]].
  - split; intros m; destruct m as [|[|m]]; cbn [dleg INR]; ring.
  - pose proof (recA_of_B x l IB) as A; split; intros m; pose proof (A m) as Am; rewrite !S_INR.
    + pose proof (IC m) as Cm.
      assert (T : (INR l + 2) * dleg x (S (S l)) m =
        (2 * INR l + 3) * (x * dleg x (S l) m + INR m * dleg x (S l) (pred m)) - (INR l + 1) * dleg x l m).
      { rewrite dleg_SS, !S_INR; pose proof (pos_INR l); field; lra. }
      assert (Am' : INR m * dleg x (S (S l)) m
        = INR m * (dleg x l m + (2 * INR l + 3) * dleg x (S l) (pred m))).
      { destruct m as [|m]; [cbn [INR]; ring|cbn [pred]; f_equal; pose proof (A m); lra]. }
      replace (dleg x (S (S l)) (S m)) with (dleg x l (S m) + (2 * INR l + 3) * dleg x (S l) m) by lra.
      replace (dleg x (S l) (S m)) with (x * dleg x l (S m) + (INR l + 1 + INR m) * dleg x l m) by lra.
      replace ((INR l + 1 + 1 - INR m) * dleg x (S (S l)) m)
        with ((INR l + 2) * dleg x (S (S l)) m - INR m * dleg x (S (S l)) m) by ring.
      rewrite T, Am'; ring.
    + pose proof (IB m) as Bm; lra.
Qed.

(** (l+2-m) P_{l+2}^(m) = (2l+3) x P_{l+1}^(m) - (l+1+m) P_l^(m) *)
Lemma dleg_three : forall x l m,
  (INR l + 2 - INR m) * dleg x (S (S l)) m
  = (2 * INR l + 3) * x * dleg x (S l) m - (INR l + 1 + INR m) * dleg x l m.
Proof.
  intros x l m; destruct (recs x l) as [B _]; pose proof (recA_of_B x l B) as A.
  assert (T : (INR l + 2) * dleg x (S (S l)) m =
    (2 * INR l + 3) * (x * dleg x (S l) m + INR m * dleg x (S l) (pred m)) - (INR l + 1) * dleg x l m).
  { rewrite dleg_SS, !S_INR; pose proof (pos_INR l); field; lra. }
  destruct m as [|m]; [cbn [INR pred] in *; lra|cbn [pred] in *].
  pose proof (A m) as Am.
  replace ((INR l + 2 - INR (S m)) * dleg x (S (S l)) (S m))
    with ((INR l + 2) * dleg x (S (S l)) (S m) - INR (S m) * dleg x (S (S l)) (S m)) by ring.
  rewrite T.
  replace (dleg x (S (S l)) (S m)) with (dleg x l (S m) + (2 * INR l + 3) * dleg x (S l) m) by lra.
  ring.
Qed.

Lemma dleg_high : forall x l m, (l < m)%nat -> dleg x l m = 0.
Proof.
  intros x l; induction l as [l IH] using lt_wf_ind; intros m Hm.
  destruct l as [|[|l]]; destruct m as [|[|m]]; try lia; try reflexivity.
  rewrite dleg_SS, (IH (S l)), (IH (S l)), (IH l) by (cbn [pred]; lia).
  unfold Rdiv; ring.
Qed.

Lemma dleg_diag : forall x l, dleg x (S l) (S l) = (2 * INR l + 1) * dleg x l l.
Proof.
  intros x [|l]; [cbn; ring|].
  destruct (recs x l) as [B _]; pose proof (recA_of_B x l B (S l)) as A.
  rewrite (dleg_high x l) in A by lia; rewrite S_INR; lra.
Qed.

Lemma dleg_diag_pos : forall x l, 0 < dleg x l l.
Proof.
  intros x l; induction l as [|l IH]; [cbn; lra|].
  rewrite dleg_diag; pose proof (pos_INR l); apply Rmult_lt_0_compat; lra.
Qed.

(** Normalisation factor of the fully normalised functions:
    sqrt ((2 - [m=0]) (2l+1) (l-m)!/(l+m)!) *)
Definition full_norm2 (l m : nat) : R :=
  (match m with O => 1 | _ => 2 end) * (2 * INR l + 1) * INR (fact (l - m)) / INR (fact (l + m)).
Definition full_norm (l m : nat) : R := sqrt (full_norm2 l m).
