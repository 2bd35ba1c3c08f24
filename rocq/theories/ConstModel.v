(** Model of pyTMD/io/constituents.py: the container of tide model
    constituents (lines 37-122, 283-310), its amplitudes and phases
    (lines 124-167), the lists of Doodson numbers (lines 169-218) and the
    parser of constituent names (lines 230-273).

    A python instance is its own attribute dictionary; [fields] and
    [__index__] live in it beside one attribute for each constituent, so they
    are kept as separate components of the record and constituents with
    those names are outside the model ([special]).  Values are any type [A]
    (in the code masked complex arrays).  [copy.copy] of a value is equal to it;
    the model has no object identities. *)
From Coq Require Import String Ascii List Arith ZArith Bool Lia.
From Verif Require Import PyBase StrBase.
Import ListNotations.
Open Scope string_scope.

(** * Attribute lookup *)
(** names of the class namespace (io/constituents.py lines 54, 70, 87, 106,
    124, 146, 231: methods; lines 170, 187, 204, 221: properties) *)
Definition methods : list string :=
  ["append"; "get"; "pop"; "update"; "amplitude"; "phase"; "parse"].
Definition properties : list string :=
  ["doodson_number"; "cartwright_number"; "extended_doodson"; "shape"].
(** attributes that every instance carries: [fields] (line 48), [__index__]
    (line 49) and the double-underscore names inherited from [object]; they are
    not modelled as constituents *)
Definition special (n : string) : bool :=
  String.eqb n "fields" || String.prefix "__" n.

Section Container.
  Context {A : Type}.

  (** what an attribute lookup can give *)
  Inductive obj : Type :=
  | Arr (a : A)               (* stored constituent *)
  | Member (n : string).      (* bound method or value of a property *)

  (** the instance: lines 46-52 *)
  Record cst : Type := Cst {
    fields : list string;
    attrs : list (string * A);       (* instance dictionary, last set first *)
    index : nat }.

  Fixpoint lookup (n : string) (l : list (string * A)) : option A :=
    match l with
    | [] => None
    | (m, a) :: l' => if String.eqb n m then Some a else lookup n l'
    end.

  (** getattr(self, n): properties are data descriptors and win over the
      instance dictionary, methods do not *)
  Definition getattr (s : cst) (n : string) : res obj :=
    if special n then Err OtherError
    else if mem_str n properties then Ok (Member n)
    else match lookup n (attrs s) with
         | Some a => Ok (Arr a)
         | None => if mem_str n methods then Ok (Member n) else Err AttributeError
         end.

  (** hasattr(self, n) *)
  Definition hasattr (s : cst) (n : string) : bool := is_ok (getattr s n).

  (** setattr(self, n, v): a property without setter raises AttributeError *)
  Definition setattr (s : cst) (n : string) (a : A) : cst * res unit :=
    if special n then (s, Err OtherError)
    else if mem_str n properties then (s, Err AttributeError)
    else (Cst (fields s) ((n, a) :: attrs s) (index s), Ok tt).

  (** delattr(self, n): only the instance dictionary *)
  Definition delattr (s : cst) (n : string) : cst * res unit :=
    if special n then (s, Err OtherError)
    else if mem_str n properties then (s, Err AttributeError)
    else match lookup n (attrs s) with
         | Some _ =>
             (Cst (fields s) (filter (fun e => negb (String.eqb n (fst e))) (attrs s)) (index s), Ok tt)
         | None => (s, Err AttributeError)
         end.

  (** list.remove: first occurrence, ValueError when absent *)
  Fixpoint list_remove (n : string) (l : list string) : option (list string) :=
    match l with
    | [] => None
    | m :: l' => if String.eqb n m then Some l'
                 else match list_remove n l' with Some r => Some (m :: r) | None => None end
    end.

  (** * Methods *)
  (** __init__ without keywords: lines 46-49 *)
  Definition init : cst := Cst [] [] 0.

  (** append: lines 54-68.  The name is listed before the attribute is set. *)
  Definition append (s : cst) (f : string) (a : A) : cst * res unit :=
    setattr (Cst (fields s ++ [f])%list (attrs s) (index s)) f a.

  (** get: lines 70-85 *)
  Definition get (s : cst) (f : string) : cst * res obj := (s, getattr s f).

  (** pop: lines 87-104 *)
  Definition pop (s : cst) (f : string) : cst * res obj :=
    match list_remove f (fields s) with
    | None => (s, Err ValueError)
    | Some l =>
        let s1 := Cst l (attrs s) (index s) in
        match getattr s1 f with
        | Err e => (s1, Err e)
        | Ok o => let (s2, r) := delattr s1 f in (s2, do _ <- r ;; Ok o)
        end
    end.

  (** update: lines 106-122 *)
  Definition update (s : cst) (f : string) (a : A) : cst * res unit :=
    if hasattr s f then setattr s f a else (s, Err KeyError).

  (** __len__: lines 283-286 *)
  Definition len (s : cst) : nat := List.length (fields s).

  (** __iter__: lines 288-292 *)
  Definition iter (s : cst) : cst := Cst (fields s) (attrs s) 0.

  (** __next__: lines 294-304 *)
  Definition next (s : cst) : cst * res (string * obj) :=
    match nth_error (fields s) (index s) with
    | None => (s, Err StopIteration)
    | Some f =>
        match getattr s f with
        | Err e => (s, Err e)
        | Ok o => (Cst (fields s) (attrs s) (S (index s)), Ok (f, o))
        end
    end.

  (** __getitem__ and __setitem__: lines 306-310 *)
  Definition getitem (s : cst) (f : string) : cst * res obj := (s, getattr s f).
  Definition setitem (s : cst) (f : string) (a : A) : cst * res unit := setattr s f a.

  (** The python statement [for f, c in self: body], where [body] is what the
      loop body does to the container; the values visited, or [None] when
      more than [fuel] steps are taken.  Any exception but StopIteration
      escapes and is kept beside the values visited before it. *)
  Fixpoint for_loop (fuel : nat) (body : cst -> cst) (s : cst)
    : option (list (string * obj) * cst * res unit) :=
    match fuel with
    | O => None
    | S n =>
        match next s with
        | (s1, Err StopIteration) => Some ([], s1, Ok tt)
        | (s1, Err e) => Some ([], s1, Err e)
        | (s1, Ok x) =>
            match for_loop n body (body s1) with
            | Some (xs, s2, r) => Some (x :: xs, s2, r)
            | None => None
            end
        end
    end.
  Definition for_each (fuel : nat) (body : cst -> cst) (s : cst) := for_loop fuel body (iter s).

  (** * Histories: a sequence of calls, exceptions being caught by the caller *)
  Inductive call : Type :=
  | CAppend (f : string) (a : A)
  | CGet (f : string)
  | CPop (f : string)
  | CUpdate (f : string) (a : A)
  | CGetItem (f : string)
  | CSetItem (f : string) (a : A)
  | CLen
  | CIter
  | CNext.

  Inductive answer : Type :=
  | Done (r : res unit)
  | Value (r : res obj)
  | Count (n : nat)
  | Pair (r : res (string * obj)).

  Definition exec (s : cst) (c : call) : cst * answer :=
    match c with
    | CAppend f a => let (s', r) := append s f a in (s', Done r)
    | CGet f => let (s', r) := get s f in (s', Value r)
    | CPop f => let (s', r) := pop s f in (s', Value r)
    | CUpdate f a => let (s', r) := update s f a in (s', Done r)
    | CGetItem f => let (s', r) := getitem s f in (s', Value r)
    | CSetItem f a => let (s', r) := setitem s f a in (s', Done r)
    | CLen => (s, Count (len s))
    | CIter => (iter s, Done (Ok tt))
    | CNext => let (s', r) := next s in (s', Pair r)
    end.

  Fixpoint run (s : cst) (cs : list call) : cst * list answer :=
    match cs with
    | [] => (s, [])
    | c :: cs' => let (s1, a) := exec s c in let (s2, l) := run s1 cs' in (s2, a :: l)
    end.
End Container.
Arguments obj : clear implicits.
Arguments cst : clear implicits.
Arguments call : clear implicits.
Arguments answer : clear implicits.
