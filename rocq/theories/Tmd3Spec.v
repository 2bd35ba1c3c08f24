(** Vocabulary of the statements about TMD3 files (C75), independent of the functions of
    the model. *)
From Coq Require Import Reals List ZArith Arith Ascii.
From Verif Require Import ExtractModel ExtractSpec ExtractProps Tmd3Model.
Import ListNotations.
Open Scope R_scope.

(** row [j] from the south of an array whose rows are stored from the north *)
Definition from_south {A} (d : A) (ny : nat) (m : list (list A)) (j i : nat) : A := entry d m (ny - 1 - j) i.
Definition southward (y0 dy : R) (ny : nat) (l : list R) : Prop :=
  0 < dy /\ length l = ny /\ forall j, (j < ny)%nat -> nth (ny - 1 - j) l 0 = y0 + INR j * dy.
(** the parts of the constants of a variable in the file *)
Definition real_part (f : tmd3) (t : variable) : list (list (list (R * bool))) :=
  match t with Vz => t_hre f | Vu => t_ure f | VU => t_ure f | Vv => t_vre f | VV => t_vre f | Vother => [] end.
Definition imaginary_part (f : tmd3) (t : variable) : list (list (list (R * bool))) :=
  match t with Vz => t_him f | Vu => t_uim f | VU => t_uim f | Vv => t_vim f | VV => t_vim f | Vother => [] end.
Definition arrays (nc ny nx : nat) (l : list (list (list (R * bool)))) : Prop :=
  (nc <= length l)%nat /\ forall m, In m l -> rect ny nx m.
(** the names in the attribute of the file *)
Definition white (a : ascii) : Prop := a = " "%char \/ a = ascii_of_nat 9 \/ a = ascii_of_nat 10.
Definition word (w : list ascii) : Prop := w <> [] /\ Forall (fun a => ~ white a) w.
Inductive spelled : list ascii -> list (list ascii) -> Prop :=
  | No_words b : Forall white b -> spelled b []
  | Last_word b w : Forall white b -> word w -> spelled (b ++ w) [w]
  | Next_word b w c t ws : Forall white b -> word w -> white c -> spelled t ws -> spelled (b ++ w ++ c :: t) (w :: ws).
(** a TMD3 file of [nc] constituents on an even grid *)
Definition tmd3_file (geo around : bool) (x0 dx : R) (nx : nat) (y0 dy : R) (ny : nat) (names : list (list ascii)) (t : variable) (f : tmd3) : Prop :=
  evenly x0 dx nx (t_x f) /\ southward y0 dy ny (t_y f) /\ (2 <= nx)%nat /\ (2 <= ny)%nat /\
  rect ny nx (t_wct f) /\ rect ny nx (t_mask f) /\ rect ny nx (t_flexure f) /\ spelled (t_order f) names /\
  arrays (length names) ny nx (real_part f t) /\ arrays (length names) ny nx (imaginary_part f t) /\
  (around = true /\ geo = true /\ INR nx * dx = 360 \/
   around = false /\ (geo = false \/ ~ ExtractSpec.close (INR (nx - 1) * dx) (360 - dx))).
(** the factor of flexure, in the file in percent *)
Definition factor (flexure : bool) (t : variable) (ny : nat) (f : tmd3) (j i : nat) : R :=
  if flexure then match t with Vz => fst (from_south (0, false) ny (t_flexure f) j i) / 100 | _ => 1 end else 1.
(** what is returned for the constant re + i im of a file: amplitude and phase lag of
    re = a cos p, im = a sin p; nothing on land or where the constant is zero *)
Definition lag (velocity : bool) (depth : option R) (re im : R) (out : option (R * R)) : Prop :=
  match depth with
  | None => out = None
  | Some d => (re = 0 /\ im = 0 /\ out = None) \/
      (~ (re = 0 /\ im = 0) /\ exists a p, 0 <= a /\ 0 <= p < 360 /\ re = a * cos (p * PI / 180) /\ im = a * sin (p * PI / 180) /\
         out = Some (if velocity then a / (d / 100) else a, p))
  end.
