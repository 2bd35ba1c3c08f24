(** Shared vocabulary for the discrete parts of the model: python exceptions
    as values, a few list operations with numpy semantics. *)
From Coq Require Import List ZArith Lia Bool String.
Import ListNotations.
Open Scope Z_scope.

(** Python exceptions that the modelled code can raise. *)
Inductive exn : Type :=
| ValueError | IndexError | KeyError | TypeError | AssertionError
| AttributeError | NameError | FileNotFoundError | StopIteration | OtherError.

(** Result of a python computation. *)
Inductive res (A : Type) : Type :=
| Ok (a : A)
| Err (e : exn).
Arguments Ok {A} a.
Arguments Err {A} e.

Lemma Ok_inj {A} (a b : A) : Ok a = Ok b -> a = b.
Proof. congruence. Qed.

Definition bind {A B} (r : res A) (f : A -> res B) : res B :=
  match r with Ok a => f a | Err e => Err e end.

Notation "'do' x <- r ;; k" := (bind r (fun x => k))
  (at level 200, x name, r at level 100, k at level 200).

Definition is_ok {A} (r : res A) : bool :=
  match r with Ok _ => true | Err _ => false end.

Fixpoint mapM {A B} (f : A -> res B) (l : list A) : res (list B) :=
  match l with
  | [] => Ok []
  | a :: l' => do b <- f a ;; do bs <- mapM f l' ;; Ok (b :: bs)
  end.

(** [np.min] / [np.max] of a non-empty list (numpy raises ValueError on empty). *)
Fixpoint lmin (x : Z) (l : list Z) : Z :=
  match l with [] => x | y :: l' => Z.min x (lmin y l') end.
Fixpoint lmax (x : Z) (l : list Z) : Z :=
  match l with [] => x | y :: l' => Z.max x (lmax y l') end.

Definition np_min (l : list Z) : res Z :=
  match l with [] => Err ValueError | x :: l' => Ok (lmin x l') end.
Definition np_max (l : list Z) : res Z :=
  match l with [] => Err ValueError | x :: l' => Ok (lmax x l') end.

Lemma lmin_spec l : forall x,
  (forall y, In y (x :: l) -> lmin x l <= y) /\ In (lmin x l) (x :: l).
Proof.
  induction l as [|a l IH]; intros x; cbn [lmin].
  - split; [intros y [->|[]]; lia | now left].
  - destruct (IH a) as [H1 H2]. split.
    + intros y [->|H]; [lia|]. specialize (H1 y H). lia.
    + destruct (Z.min_spec x (lmin a l)) as [[_ ->]|[_ ->]]; [now left | now right].
Qed.

Lemma lmax_spec l : forall x,
  (forall y, In y (x :: l) -> y <= lmax x l) /\ In (lmax x l) (x :: l).
Proof.
  induction l as [|a l IH]; intros x; cbn [lmax].
  - split; [intros y [->|[]]; lia | now left].
  - destruct (IH a) as [H1 H2]. split.
    + intros y [->|H]; [lia|]. specialize (H1 y H). lia.
    + destruct (Z.max_spec x (lmax a l)) as [[_ ->]|[_ ->]]; [now right | now left].
Qed.

Lemma np_min_ok l m : np_min l = Ok m -> (forall y, In y l -> m <= y) /\ In m l.
Proof. destruct l as [|x l]; cbn; [discriminate|]. intros [= <-]. apply lmin_spec. Qed.

Lemma np_max_ok l m : np_max l = Ok m -> (forall y, In y l -> y <= m) /\ In m l.
Proof. destruct l as [|x l]; cbn; [discriminate|]. intros [= <-]. apply lmax_spec. Qed.

(** [np.argmin]: index of the first minimum. *)
Fixpoint argmin_from (best : Z) (ibest i : nat) (l : list Z) : nat :=
  match l with
  | [] => ibest
  | y :: l' => if y <? best then argmin_from y i (S i) l'
               else argmin_from best ibest (S i) l'
  end.
Definition np_argmin (l : list Z) : res nat :=
  match l with [] => Err ValueError | x :: l' => Ok (argmin_from x 0 1 l') end.

(** Python slice [l[a:b]] for [0 <= a]. *)
Definition slice {A} (a b : nat) (l : list A) : list A := firstn (b - a) (skipn a l).

Lemma slice_length {A} a b (l : list A) :
  (b <= List.length l)%nat -> List.length (slice a b l) = (b - a)%nat.
Proof. intros H. unfold slice. rewrite firstn_length, skipn_length. lia. Qed.

Lemma nth_skipn {A} (d : A) n k l : nth k (skipn n l) d = nth (n + k) l d.
Proof.
  revert l; induction n as [|n IH]; intros [|x l]; cbn; auto.
  now destruct k.
Qed.

Lemma nth_firstn {A} (d : A) n k l : (k < n)%nat -> nth k (firstn n l) d = nth k l d.
Proof.
  revert k l; induction n as [|n IH]; intros k [|x l] H; cbn; auto; try lia.
  destruct k; auto. apply IH; lia.
Qed.

Lemma slice_nth {A} (d : A) a b k l : (k < b - a)%nat -> nth k (slice a b l) d = nth (a + k) l d.
Proof. intros H. unfold slice. now rewrite nth_firstn, nth_skipn by lia. Qed.
