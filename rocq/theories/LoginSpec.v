(** Trying credentials one after the other. *)
From Coq Require Import String List Arith.
Open Scope string_scope.

(** [k] is the first of the first [n] that satisfies [P] *)
Definition first_of (P : nat -> Prop) (n k : nat) : Prop :=
  k < n /\ P k /\ forall j, j < k -> ~ P j.

(** a credential is there: given and not empty *)
Definition there (s : option string) (v : string) : Prop := s = Some v /\ v <> "".
Definition absent (s : option string) : Prop := s = None \/ s = Some "".

(** the pairs tried by a person who types everything but the first user name *)
Definition typed (user : string) (names words : nat -> string) (k : nat) : string * string :=
  match k with
  | O => (user, words O)
  | S k => (names k, words (S k))
  end.
