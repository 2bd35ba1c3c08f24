(** Copying and moving a file (pyTMD/utilities.py:457-483), as the states of the file system after
    each of its calls.

    Names stand for directories or for files, which several names may share (hard links; symbolic
    links are names of the file they lead to, which removing one does not change; the removal of
    such a link is as that of a name).  A file is its bytes and its status (mode and times, one
    value).  Standard library: shutil.copyfile compares the files (os.path.samefile), opens the
    source, opens the destination for writing, which empties it, and writes the bytes in pieces;
    shutil.copystat copies the status.  Parameters: the pieces; the place of a new file, its
    status, and whether a name can be created.  Special files, expanduser and the message of the
    log are left out; exceptions other than FileNotFoundError are OtherError. *)
From Coq Require Import String List ZArith Bool Arith.
From Verif Require Import PyBase.
Import ListNotations.

Inductive node := Dir | Node (i : nat).
Record fs := FS { names : string -> option node; data : nat -> option (list Z * Z) }.
Definition put (f : fs) (i : nat) (v : list Z * Z) : fs := FS (names f) (fun j => if Nat.eqb j i then Some v else data f j).
Definition name (f : fs) (p : string) (n : option node) : fs := FS (fun q => if String.eqb q p then n else names f q) (data f).

(** open(destination, 'wb') *)
Definition opened (fresh : fs -> nat) (status : Z) (creatable : string -> bool) (f : fs) (d : string) : res (nat * Z * fs) :=
  match names f d with
  | Some Dir => Err OtherError
  | Some (Node i) => match data f i with Some (_, t) => Ok (i, t, put f i ([], t)) | None => Err OtherError end
  | None => if creatable d then Ok (fresh f, status, name (put f (fresh f) ([], status)) d (Some (Node (fresh f)))) else Err FileNotFoundError
  end.
(** the states while the pieces are written after the bytes [done] *)
Fixpoint writes (f : fs) (i : nat) (t : Z) (done : list Z) (pieces : list (list Z)) : list fs :=
  match pieces with
  | [] => []
  | p :: rest => put f i (done ++ p, t) :: writes f i t (done ++ p) rest
  end.
(** os.path.samefile; False where one of them does not exist *)
Definition samefile (f : fs) (s d : string) : bool :=
  match names f s, names f d with
  | Some (Node i), Some (Node j) => Nat.eqb i j
  | Some Dir, Some Dir => String.eqb s d
  | _, _ => false
  end.
(** 475-483: the states after each call, and the exception *)
Definition copy (fresh : fs -> nat) (status : Z) (creatable : string -> bool) (split : list Z -> list (list Z))
    (f : fs) (source destination : string) (move : bool) : list fs * option exn :=
  if samefile f source destination then ([], Some OtherError) else
  match names f source with
  | None => ([], Some FileNotFoundError)
  | Some Dir => ([], Some OtherError)
  | Some (Node k) =>
      match data f k with
      | None => ([], Some OtherError)
      | Some (c, t) =>
          match opened fresh status creatable f destination with
          | Err e => ([], Some e)
          | Ok (i, t', f1) =>
              let f2 := put f1 i (c, t) in
              (f1 :: writes f1 i t' [] (split c) ++ f2 :: (if move then [name f2 source None] else []), None)
          end
      end
  end.
