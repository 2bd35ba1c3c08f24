(** What a container of named constituents should do, independently of how
    the code stores it: an ordered list of distinct names, each with the value
    last stored under it. *)
From Coq Require Import String List Bool Arith.
From Verif Require Import PyBase ConstModel.
Import ListNotations.
Open Scope string_scope.

Section Ideal.
  Context {A : Type}.

  (** the value stored under a name *)
  Fixpoint value_of (f : string) (l : list (string * A)) : option A :=
    match l with
    | [] => None
    | (m, a) :: l' => if string_dec f m then Some a else value_of f l'
    end.

  (** a new name goes to the end *)
  Definition added (f : string) (a : A) (l : list (string * A)) := (l ++ [(f, a)])%list.
  (** the named entry goes, the others keep their order *)
  Definition dropped (f : string) (l : list (string * A)) :=
    filter (fun e => if string_dec f (fst e) then false else true) l.
  (** the named entry gets a new value in place *)
  Definition replaced (f : string) (a : A) (l : list (string * A)) :=
    map (fun e => if string_dec f (fst e) then (f, a) else e) l.
End Ideal.

(** Names that the class does not use itself. *)
Definition class_names : list string :=
  ["append"; "get"; "pop"; "update"; "amplitude"; "phase"; "parse";
   "doodson_number"; "cartwright_number"; "extended_doodson"; "shape"; "fields"].
Definition plain (f : string) : Prop :=
  ~ In f class_names /\ String.prefix "__" f = false.

(** The ideal container answering the calls of the interface ([call] and
    [answer] are the method names and return values, not the code): its state is
    the list of entries and the position of the iteration. *)
Section Calls.
  Context {A : Type}.

  Definition ideal (l : list (string * A)) (i : nat) (c : call A)
    : list (string * A) * nat * answer A :=
    match c with
    | CAppend f a => (added f a l, i, Done (Ok tt))
    | CGet f | CGetItem f =>
        (l, i, Value (match value_of f l with Some a => Ok (Arr a) | None => Err AttributeError end))
    | CPop f =>
        match value_of f l with
        | Some a => (dropped f l, i, Value (Ok (Arr a)))
        | None => (l, i, Value (Err ValueError))
        end
    | CUpdate f a =>
        match value_of f l with
        | Some _ => (replaced f a l, i, Done (Ok tt))
        | None => (l, i, Done (Err KeyError))
        end
    | CSetItem f a => (replaced f a l, i, Done (Ok tt))
    | CLen => (l, i, Count (List.length l))
    | CIter => (l, 0, Done (Ok tt))
    | CNext =>
        match nth_error l i with
        | Some (f, a) => (l, S i, Pair (Ok (f, Arr a)))
        | None => (l, i, Pair (Err StopIteration))
        end
    end.

  Fixpoint ideal_run (l : list (string * A)) (i : nat) (cs : list (call A))
    : list (string * A) * nat * list (answer A) :=
    match cs with
    | [] => (l, i, [])
    | c :: cs' =>
        let '(l1, i1, a) := ideal l i c in
        let '(l2, i2, r) := ideal_run l1 i1 cs' in (l2, i2, a :: r)
    end.

  (** a call that the container is meant for: a name is appended once, items
      are assigned to listed names, no name is one of the class's own *)
  Definition proper (l : list (string * A)) (c : call A) : Prop :=
    match c with
    | CAppend f _ => plain f /\ ~ In f (map fst l)
    | CSetItem f _ => plain f /\ In f (map fst l)
    | CGet f | CGetItem f | CPop f | CUpdate f _ => plain f
    | CLen | CIter | CNext => True
    end.
  Fixpoint proper_run (l : list (string * A)) (i : nat) (cs : list (call A)) : Prop :=
    match cs with
    | [] => True
    | c :: cs' => proper l c /\ let '(l1, i1, _) := ideal l i c in proper_run l1 i1 cs'
    end.
End Calls.
