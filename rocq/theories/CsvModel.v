(** Model of the routines reading and writing columns of text (pyTMD/spatial.py:251-362
    from_ascii, 805-874 to_ascii).

    Simplifications: text is a list of ascii characters and lines end with a newline
    (files of other newlines are translated by python's text mode); a delimiter is one
    character; digits are ascii digits.  The conversions between numbers and text
    (np.float64(s), f'{d}', str of an attribute), of dates (timescale.time.parse) and the
    YAML parser are parameters: [num], [show], [date], [yaml].  Opening, compression and
    closing of files are left out.

    The values of a header are texts (yaml.BaseLoader), and numpy refuses a text as the
    fill value of an array of numbers: ma.core._check_fill_value raises a TypeError, which
    is part of the model (lines 356-359). *)
From Coq Require Import List Bool Arith ZArith String Ascii.
From Verif Require Import PyBase.
Import ListNotations.
Local Open Scope char_scope.

Definition text := list ascii.
(** a literal *)
Definition lit (s : string) : text := list_ascii_of_string s.
Definition newline : ascii := "010".

(** str.split(c) for one character; str.splitlines() *)
Fixpoint split_on (c : ascii) (t : text) : list text :=
  match t with
  | [] => [[]]
  | a :: t => if Ascii.eqb a c then [] :: split_on c t else match split_on c t with l :: r => (a :: l) :: r | [] => [[a]] end
  end.
Definition splitlines (t : text) : list text :=
  let l := split_on newline t in match rev l with [] :: r => rev r | _ => l end.
(** l.replace('D', 'E') *)
Definition exponential (t : text) : text := map (fun a => if Ascii.eqb a "D" then "E" else a) t.

(** the regular expression of lines 298: a sign, digits with a point, an exponent *)
Definition digit (a : ascii) : bool := (48 <=? nat_of_ascii a)%nat && (nat_of_ascii a <=? 57)%nat.
Definition sign (a : ascii) : bool := Ascii.eqb a "-" || Ascii.eqb a "+".
Fixpoint digits (t : text) : text * text :=
  match t with a :: r => if digit a then let p := digits r in (a :: fst p, snd p) else ([], t) | [] => ([], []) end.
Definition optional_sign (t : text) : text * text := match t with a :: r => if sign a then ([a], r) else ([], t) | [] => ([], []) end.
Definition mantissa (t : text) : option (text * text) :=
  let p := digits t in
  match snd p with
  | "." :: r => let q := digits r in
      match fst q, fst p with
      | _ :: _, _ => Some (fst p ++ "." :: fst q, snd q)
      | [], _ :: _ => Some (fst p ++ ["."], r)
      | [], [] => None
      end
  | r => match fst p with [] => None | _ => Some (fst p, r) end
  end.
Definition exponent (t : text) : text * text :=
  match t with
  | e :: r => if Ascii.eqb e "E" || Ascii.eqb e "e" || Ascii.eqb e "D"
      then let s := optional_sign r in let d := digits (snd s) in
           match fst d with [] => ([], t) | _ => (e :: fst s ++ fst d, snd d) end
      else ([], t)
  | [] => ([], [])
  end.
Definition number_at (t : text) : option (text * text) :=
  let s := optional_sign t in
  match mantissa (snd s) with
  | Some (m, r) => let e := exponent r in Some (fst s ++ m ++ fst e, snd e)
  | None => None
  end.
(** rx.findall(line): from left to right *)
Fixpoint findall (fuel : nat) (t : text) : list text :=
  match fuel with
  | O => []
  | S n => match number_at t with
           | Some (m, r) => m :: findall n r
           | None => match t with [] => [] | _ :: r => findall n r end
           end
  end.
Definition fields_of (delimiter : option ascii) (line : text) : list text :=
  map exponential (match delimiter with Some c => split_on c line | None => findall (S (List.length line)) line end).

(** "# End of YAML header" in the line *)
Fixpoint starts (p t : text) : bool := match p, t with [], _ => true | a :: p, b :: t => Ascii.eqb a b && starts p t | _, [] => false end.
Fixpoint contains (p t : text) : bool := starts p t || match t with [] => false | _ :: t => contains p t end.
Definition marker : text := lit "# End of YAML header".
Fixpoint header_lines (lines : list text) : nat :=
  match lines with [] => O | l :: r => if contains marker l then 1%nat else S (header_lines r) end.

Section Columns.
  Context {A : Type}.
  Variable num date : text -> option A.
  Variable show : A -> text.
  (** the variables in the header and the texts of their fill values *)
  Variable yaml : list text -> res (list (string * option text)).

  Inductive head := Skip (n : nat) | Yaml.
  (** the last of equal names counts *)
  Fixpoint find {B} (k : string) (l : list (string * B)) : option B :=
    match l with [] => None | (k', b) :: l => match find k l with Some c => Some c | None => if String.eqb k k' then Some b else None end end.
  Definition parsed (dates : bool) (c : string) (t : text) : res A :=
    match (if String.eqb c "time" && dates then date t else num t) with Some a => Ok a | None => Err ValueError end.
  (** lines 341-355: one line *)
  Definition row_of (columns : list string) (delimiter : option ascii) (dates : bool) (line : text) : res (list A) :=
    let column := combine columns (fields_of delimiter line) in
    mapM (fun c => match find c column with Some t => parsed dates c t | None => Err KeyError end) columns.
  Definition column_at (rows : list (list A)) (k : nat) : list A := flat_map (fun r => match nth_error r k with Some a => [a] | None => [] end) rows.
  Definition position_of (c : string) (columns : list string) : option nat :=
    find c (combine columns (seq 0 (List.length columns))).
  Definition from_ascii (file : text) (columns : list string) (delimiter : option ascii) (h : head) (dates : bool) : res (list (list A)) :=
    let lines := splitlines file in
    do hf <- match h with
      | Skip n => if (List.length lines <? n)%nat then (match columns with [] => Ok (n, None) | _ => Err ValueError end) else Ok (n, None)
      | Yaml => let n := header_lines lines in
          do vars <- yaml (firstn n lines) ;;
          do fills <- mapM (fun c => match find c vars with Some f => Ok f | None => Err KeyError end) columns ;;
          Ok (n, match find "data" (combine columns fills) with Some f => f | None => None end)
      end ;;
    do rows <- mapM (row_of columns delimiter dates) (skipn (fst hf) lines) ;;
    match snd hf with
    | Some _ => Err TypeError
    | None => Ok (map (fun c => match position_of c columns with Some k => column_at rows k | None => [] end) columns)
    end.

  (** lines 805-874: numbers with their masks, which np.c_ drops; [attributes] gives the
      lines of an attribute *)
  Definition join (c : ascii) (l : list text) : text :=
    match l with [] => [] | a :: r => a ++ flat_map (fun t => c :: t) r end.
  Definition wide (n : nat) (s : string) : text := lit s ++ repeat " " (n - List.length (lit s)).
  Definition ended (t : text) : text := t ++ [newline].
  Definition header_text (today : text) (decimal : nat -> text) (columns : list string) (attributes : string -> list (string * text)) (nrow : nat) : text :=
    ended (lit "header:") ++
    newline :: ended (lit "  dimensions:") ++ ended (lit "    " ++ wide 22 "time" ++ lit ": " ++ decimal nrow) ++
    ended (lit "  non-standard_attributes:") ++ ended (lit "    " ++ wide 22 "formatting_string" ++ lit ": (" ++ decimal (List.length columns) ++ lit "f0.8)") ++ [newline] ++
    newline :: ended (lit "  global_attributes:") ++ ended (lit "    " ++ wide 22 "date_created" ++ lit ": " ++ today) ++
    newline :: ended (lit "  variables:") ++
    flat_map (fun iv : nat * string => ended (lit "    " ++ wide 22 (snd iv) ++ lit ":") ++
       flat_map (fun kv => ended (lit "      " ++ wide 20 (fst kv) ++ lit ": " ++ snd kv)) (attributes (snd iv)) ++
       ended (lit "      " ++ wide 20 "precision" ++ lit ": double_precision") ++
       ended (lit "      " ++ wide 20 "comment" ++ lit ": column " ++ decimal (S (fst iv)))) (combine (seq 0 (List.length columns)) columns) ++
    [newline; newline] ++ ended marker.
  Definition to_ascii (today : text) (decimal : nat -> text) (output : list (string * list (A * bool))) (attributes : list (string * list (string * text)))
      (delimiter : ascii) (columns : list string) (header : bool) : res text :=
    do stack <- mapM (fun c => match find c output with Some l => Ok (map fst l) | None => Err KeyError end) columns ;;
    match stack with
    | [] => Err ValueError
    | first :: _ =>
        let nrow := List.length first in
        if negb (forallb (fun l => (List.length l =? nrow)%nat) stack) then Err ValueError else
        do head <- (if header then do _ <- mapM (fun c => match find c attributes with Some a => Ok a | None => Err KeyError end) columns ;;
                      Ok (header_text today decimal columns (fun c => match find c attributes with Some a => a | None => [] end) nrow)
                    else Ok []) ;;
        Ok (head ++ flat_map (fun k => ended (join delimiter (flat_map (fun l => match nth_error l k with Some a => [show a] | None => [] end) stack))) (seq 0 nrow))
    end.
End Columns.
