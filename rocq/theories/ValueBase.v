(** Python values as they occur in model definitions (JSON values and paths). *)
From Coq Require Import String List QArith Bool.
Import ListNotations.

Inductive val :=
| VNone
| VBool (b : bool)
| VNum (x : Q)
| VStr (s : string)
| VPath (p : string)
| VList (l : list val)
| VDict (d : list (string * val)).

(** bool(v) *)
Definition truthy (v : val) : bool :=
  match v with
  | VNone => false
  | VBool b => b
  | VNum x => negb (Qeq_bool x 0)
  | VStr s => negb (String.eqb s "")
  | VPath _ => true
  | VList l => negb (Nat.eqb (List.length l) 0)
  | VDict d => negb (Nat.eqb (List.length d) 0)
  end.

(** v == "s" *)
Definition is_str (v : val) (s : string) : bool := match v with VStr t => String.eqb t s | _ => false end.
