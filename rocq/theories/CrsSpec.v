(** What the crs class is to do, in terms of pyproj's own answers (used by C92). *)
From Coq Require Import String Ascii List Bool ZArith.
From Verif Require Import CrsModel.
Import ListNotations.
Open Scope string_scope.

Section Spec.
  Context {D C P : Type} (lib : pyproj D C P).

  (** the three ways to read a description of a system, in the order in which they are tried:
      anything pyproj understands, an EPSG code, a string *)
  Definition attempts (g : given D) : list (out C) :=
    [ user_input lib g;
      match g with
      | GInt z => epsg_code lib z
      | GStr s => match int_of lib s with Some z => epsg_code lib z | None => Bad ValueFault end
      | GDict _ => Bad TypeFault
      end;
      crs_string lib g ].
  Definition refused {A} (r : out A) : Prop := r = Bad ValueFault \/ r = Bad CrsFault.
  (** the first attempt that is not refused settles it, whether it gives a system or another
      exception; if all are refused it is a CRSError *)
  Definition settles (l : list (out C)) (r : out C) : Prop :=
    (exists before later, l = (before ++ r :: later)%list /\ Forall refused before /\ ~ refused r)
    \/ (Forall refused l /\ r = Bad CrsFault).
  Definition resolves (g : given D) (c : C) : Prop := settles (attempts g) (Good c).

  (** the letter of a direction *)
  Definition way (a : ascii) : way_of :=
    if (Ascii.eqb a "F" || Ascii.eqb a "f")%bool then Forward
    else if (Ascii.eqb a "B" || Ascii.eqb a "b")%bool then Inverse else NoDirection.

  (** the system a call asks for *)
  Definition asks (k : call (D := D) (P := P)) (g : given D) : Prop :=
    match k with Convert _ g' _ _ => g = g' | Get g' => g = g' | Transform _ _ _ => False end.
  (** a call after which the instance has system [c] *)
  Definition adopts (k : call (D := D) (P := P)) (c : C) : Prop := exists g, asks k g /\ resolves g c.
  (** a call after which the instance has direction [d] *)
  Definition turns (k : call (D := D) (P := P)) (d : way_of) : Prop :=
    match k with
    | Convert _ g (String a _) _ => (exists c, resolves g c) /\ d = way a
    | _ => False
    end.
  (** a call after which the instance has name [l]: the name of the system found, or the request
      itself where convert fails to find one *)
  Definition labels (k : call (D := D) (P := P)) (l : label (D := D)) : Prop :=
    (exists c, adopts k c /\ l = Named (title lib c))
    \/ ((forall c, ~ adopts k c) /\ match k with Convert _ g _ _ => l = Asked g | _ => False end).
  (** [x] is what the last call doing anything of the kind did *)
  Definition latest {X} (does : call -> X -> Prop) (calls : list (call (D := D) (P := P))) (x : X) : Prop :=
    exists before k later, calls = (before ++ k :: later)%list /\ does k x /\ Forall (fun k' => forall y, ~ does k' y) later.
  Definition never {X} (does : call -> X -> Prop) (calls : list (call (D := D) (P := P))) : Prop :=
    Forall (fun k => forall y : X, ~ does k y) calls.
End Spec.
