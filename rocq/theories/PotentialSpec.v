(** What a table of the tide-generating potential lists, independently of the model. *)
From Coq Require Import String Ascii List Reals ZArith.
From Verif Require Import NutationSpec.
Import ListNotations.
Open Scope R_scope.

(** A term of the potential: multipliers of tau, s, h, p, N' and pp, amplitude in
    three spans of years, Doodson number, amplitude on Doodson's scale *)
Record spectral := Spectral { multiples : list Z; amp1 : R; amp2 : R; amp3 : R; code : string; scaled : R }.

(** the line of a table with this term; further columns may follow; the Doodson
    number has room for seven characters *)
Definition tells (line : string) (w : spectral) : Prop :=
  exists ks a b c n d more, laid line (ks ++ [a; b; c; n; d] ++ more)
    /\ Forall2 whole ks (multiples w) /\ List.length ks = 6%nat
    /\ real a (amp1 w) /\ real b (amp2 w) /\ real c (amp3 w) /\ real d (scaled w)
    /\ code w = String.substring 0 7 n.

(** Doodson's notation: one character for each multiple, five added to all but the
    first, X for ten and E for eleven, a point in the middle *)
Inductive numeral : Z -> ascii -> Prop :=
| numeral_digit : forall d, (d < 10)%nat -> numeral (Z.of_nat d) (ascii_of_nat (48 + d))
| numeral_ten : numeral 10 "X"
| numeral_eleven : numeral 11 "E".
Definition in_doodson (ks : list Z) (name : string) : Prop :=
  exists t s h p n pp a b c d e f, ks = [t; s; h; p; n; pp]
    /\ numeral t a /\ numeral (s + 5) b /\ numeral (h + 5) c
    /\ numeral (p + 5) d /\ numeral (n + 5) e /\ numeral (pp + 5) f
    /\ name = String a (String b (String c (String "." (String d (String e (String f EmptyString)))))).

(** Sum of the terms of long period, without the constant one, at these longitudes
    (degrees) of moon, sun, lunar perigee, ascending node and solar perigee: terms
    are their multiples and amplitude *)
Definition long_period (ts : list (list Z * R)) (s h p n pp : R) : R :=
  fold_right (fun (t : list Z * R) acc => match fst t with
    | [0%Z; a; b; c; d; e] =>
        (if (Z.eqb a 0 && Z.eqb b 0 && Z.eqb c 0 && Z.eqb d 0 && Z.eqb e 0)%bool then 0
         else snd t * cos ((IZR a * s + IZR b * h + IZR c * p + IZR d * - n + IZR e * pp) * (PI / 180))) + acc
    | _ => acc end) 0 ts.
