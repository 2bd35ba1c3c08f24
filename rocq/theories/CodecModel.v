(** Model of the netCDF4 files of single constituents: pyTMD/io/GOT.py
    (read_netcdf_file, lines 623-677, and output_netcdf_file, lines 680-759),
    pyTMD/io/FES.py (read_netcdf_file, lines 678-759, and output_netcdf_file,
    lines 762-870) and of the amplitude and phase of a constituent
    (io/constituents.py, lines 124-167).

    A cell of a complex masked array is its mask and its value; [None] is a
    value with a NaN part.  A netCDF variable is a fill value and a grid of real
    numbers ([None] is NaN); a file is the list of its variables by name.
    Simplifications: exact real numbers, the coordinate variables and the
    descriptive attributes are left out, the fill values are those numpy gives
    the arrays (any numbers here). *)
From Coq Require Import String List Reals Bool.
From Verif Require Import PyBase StrBase RBase ParseModel.
Import ListNotations.
Open Scope R_scope.

Notation cell := (bool * option cpx)%type.
Notation field := (list (list (bool * option cpx))).
Notation variable := (R * list (list (option R)))%type.

(** a == b of floats: false for NaN *)
Definition feq (x : option R) (y : R) : bool :=
  match x with Some x => if Req_EM_T x y then true else false | None => false end.
Definition isnan (x : option R) : bool := match x with Some _ => false | None => true end.

(** 180*np.arctan2(-np.imag(hc), np.real(hc))/np.pi *)
Definition lag (z : cpx) : R := 180 * atan2 (- cim z) (cre z) / PI.
(** ph.data[ph.data < 0] += 360 *)
Definition wrapped (x : R) : R := if Rlt_dec x 0 then x + 360 else x.

(** amp.data[amp.mask] = amp.fill_value: GOT.py 712-715, FES.py 806-809,
    constituents.py 140-144 *)
Definition amp_out (fill : R) (c : cell) : option R :=
  if fst c then Some fill else option_map cabs (snd c).
(** GOT.py lines 710-717, constituents.py lines 160-165 *)
Definition got_ph_out (fill : R) (c : cell) : option R :=
  if fst c then Some fill else option_map (fun z => wrapped (lag z)) (snd c).
(** FES.py lines 805-811: no wrapping *)
Definition fes_ph_out (fill : R) (c : cell) : option R :=
  if fst c then Some fill else option_map lag (snd c).

(** amp*np.exp(-1j*ph*np.pi/180.0) *)
Definition combine (amp ph : option R) : option cpx :=
  match amp, ph with
  | Some a, Some p => Some (cscale a (cexp (- p * PI / 180)))
  | _, _ => None
  end.

(** GOT.py lines 669-674 *)
Definition got_cell (famp fph : R) (amp ph : option R) : cell :=
  ((feq amp famp || feq ph fph || isnan amp || isnan ph)%bool, combine amp ph).
(** FES.py lines 751-757: also the cells where both are zero *)
Definition fes_cell (famp fph : R) (amp ph : option R) : cell :=
  ((feq amp famp || feq ph fph || (feq amp 0 && feq ph 0) || isnan amp || isnan ph)%bool, combine amp ph).

Fixpoint zip_with {A B C : Type} (f : A -> B -> C) (l : list A) (m : list B) : list C :=
  match l, m with x :: l', y :: m' => f x y :: zip_with f l' m' | _, _ => [] end.
Definition grid_with (f : option R -> option R -> cell) (a p : variable) : field :=
  zip_with (zip_with f) (snd a) (snd p).

Definition lookup {A : Type} (name : string) (l : list (string * A)) : res A :=
  match find (fun nv => String.eqb name (fst nv)) l with
  | Some nv => Ok (snd nv)
  | None => Err KeyError
  end.

Record ncfile := { variables : list (string * variable); constituent_attr : string }.

Section Write.
  (** the fill values of the arrays of amplitudes and phases *)
  Variables famp fph : R.

  (** GOT.output_netcdf_file *)
  Definition got_output (hc : field) (con : string) : ncfile :=
    {| variables := [("amplitude"%string, (famp, map (map (amp_out famp)) hc));
                     ("phase"%string, (fph, map (map (got_ph_out fph)) hc))];
       constituent_attr := upper con |}.

  (** FES.output_netcdf_file: the names by type (lines 812-824, unbound for any
      other type), the variables created, and the amplitudes stored under the
      name 'amplitude' whatever the type (line 836); the constituent name is put
      into four characters (lines 857-859; netCDF4 refuses a longer one) *)
  Definition fes_output (type : option string) (hc : field) (con : string) : res ncfile :=
    do keys <- match type with
               | Some t =>
                   if String.eqb t "z" then Ok ("amplitude"%string, "phase"%string)
                   else if String.eqb t "u" then Ok ("Ua"%string, "Ug"%string)
                   else if String.eqb t "v" then Ok ("Va"%string, "Vg"%string)
                   else Err NameError
               | None => Err NameError
               end ;;
    let '(amp_key, phase_key) := keys in
    if negb (String.eqb amp_key "amplitude") then Err KeyError else
    if (4 <? String.length con)%nat then Err OtherError else
    Ok {| variables := [(amp_key, (famp, map (map (amp_out famp)) hc));
                        (phase_key, (fph, map (map (fes_ph_out fph)) hc))];
          constituent_attr := con |}.
End Write.

(** GOT.read_netcdf_file *)
Definition got_input (f : ncfile) : res (field * string) :=
  do amp <- lookup "amplitude" (variables f) ;;
  do ph <- lookup "phase" (variables f) ;;
  do cons <- parse (constituent_attr f) ;;
  Ok (grid_with (got_cell (fst amp) (fst ph)) amp ph, cons).

(** dict(z=..., u=..., v=...)[type] *)
Definition by_type (z u v : string) (type : option string) : res string :=
  match type with
  | Some t => lookup t [("z"%string, z); ("u"%string, u); ("v"%string, v)]
  | None => Err KeyError
  end.

(** FES.read_netcdf_file: the names by version and type *)
Definition fes_keys (version type : option string) : res (string * string) :=
  match version with
  | Some ver =>
      if String.eqb ver "FES2012" then
        do a <- by_type "Ha" "Ua" "Va" type ;; do p <- by_type "Hg" "Ug" "Vg" type ;; Ok (a, p)
      else if mem_str ver ["FES2014"; "FES2022"; "EOT20"]%string then
        do a <- by_type "amplitude" "Ua" "Va" type ;; do p <- by_type "phase" "Ug" "Vg" type ;; Ok (a, p)
      else if String.eqb ver "HAMTIDE11" then
        do a <- by_type "AMPL" "UAMP" "VAMP" type ;; do p <- by_type "PHAS" "UPHA" "VPHA" type ;; Ok (a, p)
      else Err NameError
  | None => Err NameError
  end.
Definition fes_input (version type : option string) (f : ncfile) : res field :=
  do keys <- fes_keys version type ;;
  do amp <- lookup (fst keys) (variables f) ;;
  do ph <- lookup (snd keys) (variables f) ;;
  Ok (grid_with (fes_cell (fst amp) (fst ph)) amp ph).
