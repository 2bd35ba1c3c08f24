(** Model of the ascii grid readers of pyTMD/io/GOT.py (lines 538-620) and
    pyTMD/io/FES.py (lines 595-675): how the lines of the file are put into the
    arrays of amplitudes and phases.

    A file is a list of lines and a line a list of tokens ([splitlines] and
    [split]); a token is a number or not ([None]: np.array(..., dtype) raises
    ValueError).  Numbers are any type [A] (simplification: no rounding to
    float32).  The header is read by position: the sizes are arguments here.
    The longitude and latitude axes are linspaces of the header and not part
    of this model. *)
From Coq Require Import List Arith Bool.
From Verif Require Import PyBase.
Import ListNotations.

Section Ascii.
  Context {A : Type}.
  Variable zero : A.

  (** file_contents[l].split() made into numbers: IndexError past the end,
      ValueError for text *)
  Definition numbers (file : list (list (option A))) (l : nat) : res (list A) :=
    match nth_error file l with
    | None => Err IndexError
    | Some toks => mapM (fun t => match t with Some a => Ok a | None => Err ValueError end) toks
    end.

  (** data[i, j1:j1+n] = vals for a row of the array: the slice is cut at the
      end of the row; numpy accepts as many values as the slice has elements,
      or one value for all of them *)
  Definition set_slice (row : list A) (j1 n : nat) (vals : list A) : res (list A) :=
    let m := Nat.min n (List.length row - j1) in
    if (List.length vals =? m)%nat then Ok (firstn j1 row ++ vals ++ skipn (j1 + m) row)
    else match vals with
         | [v] => Ok (firstn j1 row ++ repeat v m ++ skipn (j1 + m) row)
         | _ => Err ValueError
         end.

  (** The loop over the full lines of a row, GOT.py lines 592-599 and FES.py
      lines 644-650: [k] passes left, [c] values a line.  GOT has the amplitudes
      at line l1 and the phases at l2 and moves both by one ([step] 1); FES
      has the phases one line below the amplitudes and moves by two. *)
  Fixpoint full_lines (c step : nat) (file : list (list (option A))) (k j l1 l2 : nat) (a p : list A)
    : res (nat * nat * list A * list A) :=
    match k with
    | O => Ok (l1, l2, a, p)
    | S k' =>
        do av <- numbers file l1 ;;
        do a' <- set_slice a (j * c) c av ;;
        do pv <- numbers file l2 ;;
        do p' <- set_slice p (j * c) c pv ;;
        full_lines c step file k' (S j) (l1 + step) (l2 + step) a' p'
    end.

  (** One row: the full lines, then "add last tidal variables" (GOT.py lines
      600-607, FES.py lines 651-658), whose first column uses the loop variable
      [j]: unbound when there was no full line. *)
  Definition read_row (c step : nat) (file : list (list (option A))) (nlon l1 l2 : nat)
    : res (nat * nat * list A * list A) :=
    let q := nlon / c in
    do s <- full_lines c step file q 0 l1 l2 (repeat zero nlon) (repeat zero nlon) ;;
    let '(l1, l2, a, p) := s in
    match q with
    | O => Err NameError
    | S j =>
        let j1 := (j + 1) * c in
        let j2 := nlon mod c in
        do av <- numbers file l1 ;;
        do a' <- set_slice a j1 j2 av ;;
        do pv <- numbers file l2 ;;
        do p' <- set_slice p j1 j2 pv ;;
        Ok (l1 + step, l2 + step, a', p')
    end.

  (** the loop over latitudes *)
  Fixpoint read_rows (c step : nat) (file : list (list (option A))) (nlon n l1 l2 : nat)
    : res (list (list A) * list (list A)) :=
    match n with
    | O => Ok ([], [])
    | S n' =>
        do r <- read_row c step file nlon l1 l2 ;;
        let '(l1, l2, a, p) := r in
        do rest <- read_rows c step file nlon n' l1 l2 ;;
        Ok (a :: fst rest, p :: snd rest)
    end.

  (** GOT.py lines 588-607: the amplitudes start at line 7, the phases at
      14 + (nlon//11)*nlat + nlat *)
  Definition read_got (file : list (list (option A))) (nlat nlon : nat) :=
    read_rows 11 1 file nlon nlat 7 (14 + nlon / 11 * nlat + nlat).

  (** FES.py lines 640-658: line 5, amplitudes and phases in turn *)
  Definition read_fes (file : list (list (option A))) (nlat nlon : nat) :=
    read_rows 30 2 file nlon nlat 5 6.
End Ascii.
