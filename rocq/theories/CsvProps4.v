(** C74: texts which are not read back, and examples. *)
From Coq Require Import List Bool Arith ZArith String Ascii Lia.
From Verif Require Import PyBase CsvModel CsvSpec CsvProps CsvProps2 CsvProps3.
Import ListNotations.
Local Open Scope char_scope.

Section Masks.
Context {A : Type} (show : A -> text).
(** ** Masks make no difference to what is written *)
Theorem C74_masks_refuted today decimal (output output' : list (string * list (A * bool))) attributes c columns header :
  map (fun p => (fst p, map fst (snd p))) output = map (fun p => (fst p, map fst (snd p))) output' ->
  to_ascii show today decimal output attributes c columns header = to_ascii show today decimal output' attributes c columns header.
Proof.
  intros E. unfold to_ascii.
  assert (F : forall name, match find name output with Some l => Ok (map fst l) | None => Err KeyError end = match find name output' with Some l => Ok (map fst l) | None => Err KeyError end).
  { intros name. assert (G : option_map (map fst) (find name output) = option_map (map fst) (find name output')).
    { revert output' E. induction output as [|[n l] o IH]; intros [|[n' l'] o'] E; try discriminate; [reflexivity|]. cbn in E. inversion E; subst. cbn [find]. specialize (IH o' H2). destruct (find name o), (find name o'); cbn in *; try congruence. destruct (String.eqb name n'); cbn; congruence. }
    destruct (find name output), (find name output'); cbn in G; congruence. }
  assert (M : forall l, mapM (fun c0 => match find c0 output with Some l => Ok (map fst l) | None => Err KeyError end) l = mapM (fun c0 => match find c0 output' with Some l => Ok (map fst l) | None => Err KeyError end) l).
  { induction l as [|a l IH]; [reflexivity|]. cbn [mapM]. rewrite F, IH. reflexivity. }
  now rewrite M.
Qed.
End Masks.
Print Assumptions C74_masks_refuted.

Notation lits s := (list_ascii_of_string s) (only parsing).
Definition as_text : text -> option text := @Some text.
(** a header parser which finds two columns, and one which finds a fill value *)
Definition columns_found (l : list text) : res (list (string * option text)) := Ok [("x"%string, None); ("data"%string, None)].
Definition fill_found (l : list text) : res (list (string * option text)) := Ok [("x"%string, None); ("data"%string, Some (lits "-9999.0"))].

(** ** The letter D of a date becomes an E *)
Theorem C74_dates_refuted : exists (file : text) (t : text), file = (t ++ lits ",5" ++ [newline])%list /\
  from_ascii as_text as_text columns_found file ["time"; "x"]%string (Some ",") (Skip 0) true = Ok [[lits "01-Eec-2018"]; [lits "5"]] /\ t <> lits "01-Eec-2018".
Proof. exists (lits "01-Dec-2018,5" ++ [newline])%list, (lits "01-Dec-2018"). split; [reflexivity|]. split; [vm_compute; reflexivity|discriminate]. Qed.
Print Assumptions C74_dates_refuted.
(** ** Without a delimiter, a date is three numbers *)
Theorem C74_date_fields_refuted : exists file, file = (lits "2018-12-01 5" ++ [newline])%list /\
  from_ascii as_text as_text columns_found file ["time"; "x"]%string None (Skip 0) false = Ok [[lits "2018"]; [lits "-12"]].
Proof. eexists. split; [reflexivity|]. vm_compute. reflexivity. Qed.
Print Assumptions C74_date_fields_refuted.
(** ** Without a delimiter, numbers after one that is not a number are read to the wrong columns *)
Theorem C74_nan_refuted : exists file, to_ascii (fun t => t) [] (fun _ => []) [("x"%string, [(lits "1.5", false)]); ("y"%string, [(lits "nan", false)]); ("data"%string, [(lits "7.0", false)]); ("z"%string, [(lits "8.0", false)])]
     [] " " ["x"; "y"; "data"; "z"]%string false = Ok file /\
  from_ascii as_text as_text columns_found file ["x"; "y"; "data"]%string None (Skip 0) false = Ok [[lits "1.5"]; [lits "7.0"]; [lits "8.0"]].
Proof. eexists. split; vm_compute; reflexivity. Qed.
Print Assumptions C74_nan_refuted.
(** ** A header ends at an attribute that has the closing words, and its other lines are taken for data *)
Theorem C74_closing_refuted : exists file, to_ascii (fun t => t) (lits "2026") (fun _ => lits "1") [("x"%string, [(lits "1.5", false)]); ("data"%string, [(lits "7.0", false)])]
     [("x"%string, [("comment"%string, closing)]); ("data"%string, [])] "," ["x"; "data"]%string true = Ok file /\
  from_ascii as_text as_text columns_found file ["x"; "data"]%string (Some ",") Yaml false = Err KeyError.
Proof. eexists. split; vm_compute; reflexivity. Qed.
Print Assumptions C74_closing_refuted.
(** ** A table written with a fill value cannot be read with its header *)
Theorem C74_fill_refuted : exists file, to_ascii (fun t => t) (lits "2026") (fun _ => lits "1") [("x"%string, [(lits "1.5", false)]); ("data"%string, [(lits "-9999.0", true)])]
     [("x"%string, []); ("data"%string, [("_FillValue"%string, lits "-9999.0")])] "," ["x"; "data"]%string true = Ok file /\
  from_ascii as_text as_text fill_found file ["x"; "data"]%string (Some ",") Yaml false = Err TypeError.
Proof. eexists. split; vm_compute; reflexivity. Qed.
Print Assumptions C74_fill_refuted.

(** ** Examples *)
Example numerals_ex : numeral (lits "-1.5E-03") /\ numeral (lits ".5") /\ numeral (lits "7.") /\ numeral (lits "12") /\ numeral (lits "2.0D+05").
Proof.
  assert (D : forall l, forallb (fun a => (48 <=? nat_of_ascii a)%nat && (nat_of_ascii a <=? 57)%nat) l = true -> Forall is_digit l).
  { intros l H. apply Forall_forall. intros a Ha. rewrite forallb_forall in H. specialize (H a Ha). apply andb_true_iff in H as [H1 H2]. apply Nat.leb_le in H1, H2. now split. }
  repeat split.
  - apply (Numeral ["-"] (lits "1.5") (lits "E-03")); [constructor; now left| |].
    + apply (Fraction ["1"] ["5"]); [apply D; reflexivity|discriminate|apply D; reflexivity].
    + apply (A_power "E" ["-"] (lits "03")); [now left|constructor; now left|discriminate|apply D; reflexivity].
  - apply (Numeral [] (lits ".5") []); [constructor| |constructor]. apply (Fraction [] ["5"]); [constructor|discriminate|apply D; reflexivity].
  - apply (Numeral [] (lits "7.") []); [constructor| |constructor]. apply (Pointed ["7"]); [discriminate|apply D; reflexivity].
  - apply (Numeral [] (lits "12") []); [constructor| |constructor]. apply (Whole (lits "12")); [discriminate|apply D; reflexivity].
  - apply (Numeral [] (lits "2.0") (lits "D+05")); [constructor| |].
    + apply (Fraction ["2"] ["0"]); [apply D; reflexivity|discriminate|apply D; reflexivity].
    + apply (A_power "D" ["+"] (lits "05")); [tauto|constructor; now right|discriminate|apply D; reflexivity].
Qed.
Definition two_lines : text := (lits "  -1.5E-03, 2.0D+05 7." ++ newline :: lits "3 4,.5  " ++ [newline])%list.
(** a table by numerals *)
Example read_ex : from_ascii as_text as_text columns_found two_lines ["x"; "y"; "data"]%string None (Skip 0) false =
  Ok [[lits "-1.5E-03"; lits "3"]; [lits "2.0E+05"; lits "4"]; [lits "7."; lits ".5"]].
Proof. vm_compute. reflexivity. Qed.
(** the hypotheses of [C74_read] hold of it *)
Example parted_ex : parted None (lits "3 4") [lits "3"; lits "4"] /\ readable as_text as_text false ["x"; "y"]%string [lits "3"; lits "4"] /\ parted (Some ",") (lits "3,4") [lits "3"; lits "4"].
Proof.
  assert (N : forall a, is_digit a -> numeral [a]) by (intros a Ha; apply (Numeral [] [a] []); [constructor|apply Whole; [discriminate|now constructor]|constructor]).
  split; [|split].
  - constructor. apply (Next [] ["3"] " " ["4"] [["4"]]); [constructor|apply N; unfold is_digit; cbn; lia| |].
    + split; [unfold is_digit; cbn; lia|]. cbn. intros H. repeat (destruct H as [H|H]; [discriminate|]). exact H.
    + apply (Final [] ["4"]); [constructor|apply N; unfold is_digit; cbn; lia].
  - split; [reflexivity|]. intros [|[|[|k]]] c t; cbn; try discriminate; intros [=<-] [=<-]; discriminate.
  - constructor. apply (More_fields "," ["3"] ["4"]); [now intros [K|[]]|]. constructor. now intros [K|[]].
Qed.
(** a short line is an error *)
Example short_ex : from_ascii as_text as_text columns_found (lits "1 2 3" ++ newline :: lits "1 2" ++ [newline]) ["x"; "y"; "data"]%string None (Skip 0) false = Err KeyError.
Proof. vm_compute. reflexivity. Qed.
(** columns written with a header and read back *)
Example written_ex : exists file, to_ascii (fun t => t) (lits "2026") (fun _ => lits "2") [("data"%string, [(lits "7.0", false); (lits "8.0", true)]); ("x"%string, [(lits "1.5", false); (lits "2.5", false)])]
     [("x"%string, [("units"%string, lits "m")]); ("data"%string, [])] "," ["x"; "data"]%string true = Ok file /\
  from_ascii as_text as_text columns_found file ["x"; "data"]%string (Some ",") Yaml false = Ok [[lits "1.5"; lits "2.5"]; [lits "7.0"; lits "8.0"]].
Proof. eexists. split; vm_compute; reflexivity. Qed.
(** the hypotheses on their values and texts hold *)
Example kept_ex : kept as_text as_text (fun t => t) (Some ",") "," false ["x"; "data"]%string [[lits "1.5"]; [lits "7.0"]] /\ plain (lits "units").
Proof.
  assert (C : forall a t, forallb (fun b => negb (Ascii.eqb b a)) t = true -> clear a t).
  { intros a t H K. rewrite forallb_forall in H. apply H in K. rewrite Ascii.eqb_refl in K. discriminate. }
  split; [|split; apply C; reflexivity].
  intros [|[|k]] name l a; cbn [nth_error]; try (destruct k; discriminate); intros [=<-] [=<-] [<-|[]]; (split; [reflexivity|]); (split; [apply C; reflexivity|split; [reflexivity|apply C; reflexivity]]).
Qed.
