(** Vocabulary of the statements about copies of files (C101). *)
From Coq Require Import String List ZArith.
From Verif Require Import CopyModel.
Import ListNotations.

(** what a name leads to: the bytes and the status of a file *)
Definition reads (f : fs) (p : string) : option (list Z * Z) :=
  match names f p with Some (Node i) => data f i | _ => None end.
(** two names of one file *)
Definition linked (f : fs) (p q : string) : Prop := exists i, names f p = Some (Node i) /\ names f q = Some (Node i).
(** every name of a file leads to bytes, and a new file is put where there is none *)
Definition sound (fresh : fs -> nat) (f : fs) : Prop :=
  (forall p i, names f p = Some (Node i) -> data f i <> None) /\ data f (fresh f) = None.
