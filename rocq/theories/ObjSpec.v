(** What selecting a model and exchanging it as a dictionary should do. *)
From Coq Require Import String Ascii List.
From Verif Require Import ValueBase.
Import ListNotations.
Open Scope string_scope.

(** A file of the definition in a directory, with the suffix of compressed
    files; a list of files element by element. *)
Fixpoint placed_in (dir suffix : string) (v : val) : val :=
  match v with
  | VStr (String "/" s) => VPath (String "/" s ++ suffix)
  | VStr s => VPath (dir ++ "/" ++ s ++ suffix)
  | VList l => VList (map (placed_in dir suffix) l)
  | v => v
  end.

(** texts, and lists of texts, are the files a definition may list *)
Inductive listed : val -> Prop :=
| Listed_one s : s <> "" -> listed (VStr s)
| Listed_many l : Forall (fun v => exists s, s <> "" /\ v = VStr s) l -> listed (VList l).

(** names of formats and the short forms of four of them *)
Definition short_forms : list (string * string) :=
  [("ATLAS", "ATLAS-compact"); ("netcdf", "ATLAS-netcdf"); ("FES", "FES-netcdf"); ("GOT", "GOT-ascii")].
(** the formats of the documentation of the class *)
Definition documented_formats : list string :=
  ["OTIS"; "ATLAS-compact"; "TMD3"; "ATLAS-netcdf"; "GOT-ascii"; "GOT-netcdf"; "FES-ascii"; "FES-netcdf"].

(** A value with every path as text. *)
Fixpoint as_text (v : val) : val :=
  match v with
  | VPath p => VStr p
  | VList l => VList (map as_text l)
  | VDict d => VDict (map (fun kv => (fst kv, as_text (snd kv))) d)
  | v => v
  end.
(** no path anywhere: can be written as JSON *)
Fixpoint no_path (v : val) : Prop :=
  match v with
  | VPath _ => False
  | VList l => fold_right (fun x p => no_path x /\ p) True l
  | VDict d => fold_right (fun kv p => no_path (snd kv) /\ p) True d
  | _ => True
  end.
(** lists are not empty, and all of paths or free of them *)
Fixpoint regular (v : val) : Prop :=
  match v with
  | VList l => l <> [] /\ ((forall x, In x l -> exists p, x = VPath p) \/ no_path (VList l))
  | VDict d => fold_right (fun kv p => regular (snd kv) /\ p) True d
  | _ => True
  end.

(** The constituent in the name of a file of an FES type model, as the producers
    write it: the text before the first underscore or dot, without the prefix of
    the HAMTIDE currents. *)
Fixpoint upto_mark (s : string) : string :=
  match s with
  | EmptyString => EmptyString
  | String c s' => if (Ascii.eqb c "_" || Ascii.eqb c ".")%bool then EmptyString else String c (upto_mark s')
  end.
Definition without_prefix (s : string) : string :=
  if prefix "HAMcurrent11a_" s then substring 14 (String.length s) s else s.
Definition small (c : ascii) : ascii :=
  let n := nat_of_ascii c in if (Nat.leb 65 n && Nat.leb n 90)%bool then ascii_of_nat (n + 32) else c.
Fixpoint in_small (s : string) : string :=
  match s with EmptyString => EmptyString | String c s' => String (small c) (in_small s') end.
Definition written_constituent (file_name : string) : string :=
  let s := in_small (upto_mark (without_prefix file_name)) in
  if String.eqb s "la2" then "lambda2" else if String.eqb s "2n" then "2n2" else if String.eqb s "e2" then "eps2" else s.
(** the part of a path after the directories, for relative names with exactly
    [n] directories *)
Fixpoint after_slash (s : string) : string :=
  match s with EmptyString => EmptyString | String c s' => if Ascii.eqb c "/" then s' else after_slash s' end.
Fixpoint slashes (s : string) : nat :=
  match s with EmptyString => 0 | String c s' => (if Ascii.eqb c "/" then 1 else 0) + slashes s' end.
Definition file_name (s : string) : string := Nat.iter (slashes s) after_slash s.
