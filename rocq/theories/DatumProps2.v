(** C24: what the keyword arguments of datum() do. *)
From Coq Require Import Reals String List Bool ZArith Lra.
From Verif Require Import PyBase RBase StrBase DatumModel.
Import ListNotations.
Open Scope R_scope.

(** The unit factors of a call: 1 in MKS, and 100 per metre (so 10^6 per cubic metre)
    in CGS. *)
Definition per_metre (units : string) : R := if String.eqb (upper units) "CGS" then 100 else 1.

(** Every keyword given overrides whatever the named ellipsoid lists: the gravitational
    constant and rotation rate each on their own, the semimajor axis and flattening
    only together.  Everything is in the units asked for. *)
Theorem C24_keywords k d : make k = Ok d ->
  (forall g, k_GM k = Some g -> d_GM d = g * per_metre (k_units k) ^ 3) /\
  (forall w, k_omega k = Some w -> d_omega d = w) /\
  (forall a f, k_a k = Some a -> k_flat k = Some f -> d_a d = a * per_metre (k_units k) /\ d_flat d = f /\
     (k_GM k = None -> d_GM d = 3.986004418e14 * per_metre (k_units k) ^ 3) /\
     (k_omega k = None -> d_omega d = 7292115e-11)) /\
  d_gamma d = 9.80665 * per_metre (k_units k) /\
  d_G d = 6.67430e-11 * (if String.eqb (upper (k_units k)) "CGS" then 1000 else 1) /\
  (upper (k_units k) = "MKS" \/ upper (k_units k) = "CGS")%string.
Proof.
  unfold make, per_metre. intros H.
  assert (U : (upper (k_units k) = "MKS" \/ upper (k_units k) = "CGS")%string).
  { revert H. repeat match goal with |- context [if negb ?b then _ else _] => destruct b eqn:?; cbn [negb]; try discriminate end.
    intros _. match goal with H : mem_str _ unit_names = true |- _ => apply mem_str_In in H; cbn in H; intuition congruence end. }
  revert H. destruct (negb (mem_str _ (_ ++ _))); [discriminate|]. destruct (negb _); [discriminate|].
  destruct (k_a k) as [a|] eqn:Ea; destruct (k_flat k) as [f|] eqn:Ef;
  try match goal with |- context [table ?n] => destruct (table n) as [[[[a' f'] gm] om]|]; [|discriminate] end;
  intros <-%Ok_inj; cbn [d_GM d_omega d_a d_flat d_gamma d_G];
  destruct (String.eqb (upper (k_units k)) "CGS") eqn:C;
  repeat split; try (exact U);
  repeat match goal with
  | |- forall g, k_GM k = Some g -> _ => intros ? ->; cbn [pick]
  | |- forall g, k_omega k = Some g -> _ => intros ? ->; cbn [pick]
  | |- k_GM k = None -> _ => intros ->; cbn [pick]
  | |- k_omega k = None -> _ => intros ->; cbn [pick]
  | H : Some _ = Some _ |- _ => injection H as ?; subst
  | H : None = Some _ |- _ => discriminate
  | |- forall _, _ => intro
  | |- _ /\ _ => split
  end; try reflexivity; try lra; try congruence.
Qed.
Print Assumptions C24_keywords.

(** Without keywords: the constants of each named ellipsoid. *)
Theorem C24_constants k d : make k = Ok d -> (k_a k = None \/ k_flat k = None) ->
  let name := upper (k_ellipsoid k) in
  (k_GM k = None -> d_GM d = per_metre (k_units k) ^ 3 *
     (if mem_str name ["GRS80"; "NAD83"]%string then 3.986005e14 else if String.eqb name "GRS67" then 3.98603e14
      else if mem_str name ["TOPEX"; "EGM96"]%string then 3.986004415e14 else 3.986004418e14)) /\
  (k_omega k = None -> d_omega d = if String.eqb name "GRS67" then 7292115.1467e-11 else 7292115e-11).
Proof.
  unfold make, per_metre. intros H N. cbv zeta in *. set (name := upper (k_ellipsoid k)) in *. revert H.
  destruct N as [Na|Nf]; [rewrite Na | rewrite Nf; destruct (k_a k)]; cbv iota;
  (destruct (mem_str name (ellipsoid_names ++ ["user_defined"%string])) eqn:In1; [|discriminate]; cbn [negb]; destruct (negb _); [discriminate|];
   apply mem_str_In in In1; cbn [ellipsoid_names app] in In1;
   destruct (String.eqb (upper (k_units k)) "CGS") eqn:C;
   repeat (destruct In1 as [<- | In1]; [cbv [table mem_str existsb String.eqb Ascii.eqb Bool.eqb orb]; intros E; (discriminate E || apply Ok_inj in E as <-); cbv [d_GM d_omega]; split; intros ->; cbv [pick]; lra|]);
   destruct In1).
Qed.
Print Assumptions C24_constants.

Example C24_keywords_case :
  let k := Kw "grs67" "cgs" None None (Some 4e14) None in
  exists d, make k = Ok d /\ d_GM d = 4e20 /\ d_omega d = 7292115.1467e-11 /\ d_a d = 637816000.
Proof.
  exists (Datum "GRS67" "CGS" (6378160 * 100) (1 / 298.247167427) (4e14 * 1e6) 7292115.1467e-11 (6.67430e-11 * 1000) (9.80665 * 100)).
  split; [reflexivity|]. cbv [d_GM d_omega d_a]. repeat split; lra.
Qed.
