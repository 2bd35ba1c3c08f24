(** C63: definition files of currents with a directory.  Code: pyTMD/io/model.py:679-835. *)
From Coq Require Import String Ascii List QArith Bool Arith Lia.
From Verif Require Import PyBase StrBase ValueBase DatabaseData ObjModel DefModel ObjSpec ObjProps ObjProps2 ObjProps3 ObjProps4 ObjProps5 DefProps.
Import ListNotations.
Open Scope nat_scope.
Open Scope string_scope.

(** ** C63: the files of currents read with a directory are, for each of the components, those
    found there for its patterns, in the order of the patterns; the grid file is below the directory. *)
Theorem C63_current_patterns :
  forall (K : Type) glob expand resolve (n : obj K) d f g pats found dir,
    NoDup (map fst d) -> (forall x, In x (map fst d) -> ~ In x ("directory" :: properties)) ->
    attrs n "directory" = Some (VPath dir) -> In ("format", VStr f) d -> In f ["OTIS"; "ATLAS-compact"; "TMD3"; "ATLAS-netcdf"; "FES-netcdf"] ->
    In ("type", VList [VStr "u"; VStr "v"]) d ->
    In ("model_file", VDict (map (fun e => (fst e, VList (map VStr (snd e)))) pats)) d -> pats <> [] ->
    Forall2 (fun e r => fst r = fst e /\ Forall2 (fun p l => glob dir p = Ok l) (snd e) (snd r)) pats found ->
    (f <> "FES-netcdf" -> In ("grid_file", VStr g) d /\ g <> "") ->
    (exists v, In ("name", v) d /\ truthy v = true) ->
    (In f ["OTIS"; "ATLAS-compact"; "TMD3"] -> exists v, In ("projection", v) d /\ truthy v = true) ->
    (In f ["ATLAS-netcdf"; "FES-netcdf"] -> exists v, In ("scale", v) d /\ truthy v = true) ->
    (f = "FES-netcdf" -> (exists v, In ("version", v) d /\ truthy v = true) /\ (exists v, In ("constituents", v) d /\ v <> VNone)) ->
    exists o', parse_definition glob expand resolve d n = (o', Ok tt) /\
      attrs o' "model_file" = Some (VDict (map (fun r => (fst r, VList (map VPath (concat (snd r))))) found)) /\
      (f <> "FES-netcdf" -> attrs o' "grid_file" = Some (VPath (resolve (join dir g)))).
Proof.
  intros K glob expand resolve n d f g pats found dir ND NP DN IF FF IT IM NE G GF NM PJ SC VS.
  destruct (read_run glob expand resolve n d f (VList [VStr "u"; VStr "v"]) (VDict (map (fun e => (fst e, VList (map VStr (snd e)))) pats)) (VStr g) (VPath dir) (VPath (resolve (join dir g)))
    (VDict (map (fun r => (fst r, VList (map VPath (concat (snd r))))) found))) as (o2 & R2 & AM & AG & _); auto.
  - cbn in FF |- *. intuition.
  - destruct pats; [congruence|reflexivity].
  - intros I. destruct GF as [IG NG]; [intros ->; cbn in I; intuition discriminate|]. split; [exact IG|]. split; [destruct g; [congruence|reflexivity]|reflexivity].
  - unfold model_paths. cbn [is_uv]. change ((String.eqb "u" "u" && String.eqb "v" "v")%bool) with true. cbn iota. cbn [over_items].
    assert (E : mapM (fun x => do y <- search glob dir (snd x) ;; Ok (fst x, y)) (map (fun e : string * list string => (fst e, VList (map VStr (snd e)))) pats)
      = Ok (map (fun r => (fst r, VList (map VPath (concat (snd r))))) found)).
    { clear - G. induction G as [|[k ps] [k' ls] pats found [E1 E2] G IH]; [reflexivity|]. cbn [fst snd] in *. subst k'. cbn [map mapM fst snd search].
      assert (E : mapM (fun x => match x with VStr s => glob dir s | _ => Err TypeError end) (map VStr ps) = Ok ls).
      { clear - E2. induction E2 as [|p l ps ls E E2 IH]; [reflexivity|]. cbn [map mapM]. rewrite E. cbn [bind]. rewrite IH. reflexivity. }
      rewrite E. cbn [bind]. rewrite IH. reflexivity. }
    rewrite E. reflexivity.
  - intros I. apply SC. cbn in FF, I |- *. intuition (subst; try discriminate).
  - exists o2. split; [exact R2|]. split; [exact AM|]. intros N. apply AG. cbn in FF |- *. intuition congruence.
Qed.
Print Assumptions C63_current_patterns.

(** currents of an ATLAS model: two files of u and one of v *)
Example C63_current_patterns_case :
  let d := [("format", VStr "ATLAS-netcdf"); ("name", VStr "T"); ("type", VList [VStr "u"; VStr "v"]); ("scale", VNum 1); ("grid_file", VStr "g.nc");
            ("model_file", VDict [("u", VList [VStr "m2*"; VStr "s2*"]); ("v", VList [VStr "m2*"])])] in
  let glob := fun dir p => Ok [dir ++ "/" ++ p] in
  let r := parse_definition glob (fun p => p) (fun p => p) d (fresh (C := unit) (Some "/d") false true) in
  snd r = Ok tt /\ attrs (fst r) "model_file" = Some (VDict [("u", VList [VPath "/d/m2*"; VPath "/d/s2*"]); ("v", VList [VPath "/d/m2*"])]) /\
  attrs (fst r) "directory" = Some (VPath "/d").
Proof. vm_compute. auto. Qed.
