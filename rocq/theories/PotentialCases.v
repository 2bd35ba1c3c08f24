(** C77: cases that meet the hypotheses of the theorems. *)
From Coq Require Import String Ascii List Reals ZArith Bool Lia Lra.
From Verif Require Import PyBase NutationModel NutationSpec NutationProps DoodsonModel PotentialData PotentialModel PotentialSpec PotentialProps.
Import ListNotations.
Open Scope R_scope.
Open Scope list_scope.

(** the first line of the table of 1921, which has a letter in its Doodson number *)
Definition first_line : string := "0  5 -4  1  0  0 -0.00010 -0.00010 -0.00010  0X1.655  0.00023".
Example C77_line_case : exists w, tells first_line w /\ multiples w = [0; 5; -4; 1; 0; 0]%Z /\ code w = "0X1.655"%string.
Proof.
  destruct (wave_of_line first_line) as [v|] eqn:E; [|vm_compute in E; discriminate].
  destruct (proj1 (C77_line_only first_line) v E) as (w & T & K & C & _). exists w. split; [exact T|].
  rewrite <- K, <- C. vm_compute in E. injection E as <-. split; reflexivity.
Qed.
(** ten columns are not enough *)
Example C77_short_case : parse_potential [first_line; "0  5 -4  1  0  0 -0.00010 -0.00010 -0.00010  0X1.655"]%string = Err ValueError.
Proof.
  apply C77_table. exists "0  5 -4  1  0  0 -0.00010 -0.00010 -0.00010  0X1.655"%string. split; [right; left; reflexivity|].
  intros (w & T). destruct (C77_line _ _ T) as (v & E & _). vm_compute in E. discriminate.
Qed.
Example C77_decoded_case : in_doodson [0; 5; -4; 1; 0; 0]%Z "0X1.655" /\ from_doodson (Str (characters "0X1.655")) = Ok [0; 5; -4; 1; 0; 0]%Z.
Proof.
  assert (H : in_doodson [0; 5; -4; 1; 0; 0]%Z "0X1.655").
  { exists 0%Z, 5%Z, (-4)%Z, 1%Z, 0%Z, 0%Z, "0"%char, "X"%char, "1"%char, "6"%char, "5"%char, "5"%char.
    split; [reflexivity|]. split; [apply (numeral_digit 0); lia|]. split; [apply numeral_ten|]. split; [apply (numeral_digit 1); lia|].
    split; [apply (numeral_digit 6); lia|]. split; [apply (numeral_digit 5); lia|]. split; [apply (numeral_digit 5); lia|]. reflexivity. }
  split; [exact H|]. apply C77_decoded, H.
Qed.
