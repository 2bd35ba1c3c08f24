(** How the ascii grids are laid out on file. *)
From Coq Require Import List Arith.
Import ListNotations.

Section Layout.
  Context {A : Type}.

  (** the lines of one row: all values in order, [c] on every line but the last,
      which has at least one and at most [c] *)
  Definition row_lines (c : nat) (row : list A) (lines : list (list A)) : Prop :=
    exists full part, lines = full ++ [part] /\ Forall (fun l => List.length l = c) full /\
      0 < List.length part <= c /\ row = concat full ++ part.

  (** the lines of a field, row after row *)
  Definition field_lines (c : nat) (field : list (list A)) (lines : list (list A)) : Prop :=
    exists per_row, Forall2 (row_lines c) field per_row /\ lines = concat per_row.

  (** a line of numbers on file *)
  Definition on_file (lines : list (list A)) : list (list (option A)) := map (map Some) lines.

  (** alternating lines *)
  Fixpoint alternate {B : Type} (l m : list B) : list B :=
    match l, m with x :: l', y :: m' => x :: y :: alternate l' m' | _, _ => [] end.

  (** GOT: seven header lines and the amplitudes, seven header lines and the phases *)
  Definition got_file (amp ph : list (list A)) (file : list (list (option A))) : Prop :=
    exists h1 h2 la lp rest, List.length h1 = 7 /\ List.length h2 = 7 /\
      field_lines 11 amp la /\ field_lines 11 ph lp /\
      file = h1 ++ on_file la ++ h2 ++ on_file lp ++ rest.

  (** FES: five header lines, then lines of amplitudes and of phases in turn *)
  Definition fes_file (amp ph : list (list A)) (file : list (list (option A))) : Prop :=
    exists h la lp rest, List.length h = 5 /\
      field_lines 30 amp la /\ field_lines 30 ph lp /\
      file = h ++ alternate (on_file la) (on_file lp) ++ rest.

  (** a field of [nlat] rows and [nlon] columns *)
  Definition sized (nlat nlon : nat) (field : list (list A)) : Prop :=
    List.length field = nlat /\ Forall (fun r => List.length r = nlon) field.
End Layout.
