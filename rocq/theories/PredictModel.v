(** Model of the tide predictors (pyTMD/predict.py:105-282) and of the harmonic
    fit (pyTMD/solve/constants.py:40-144), over the reals.

    The astronomical arguments enter through a [tide_args] record, i.e. the
    predictors are modelled for every possible behaviour of
    [arguments.arguments] and [arguments._constituent_parameters] that depends
    only on the time and the constituent (in the code every row of pu, pf, G is
    computed elementwise from its own time and every column from its own
    constituent; ArgModel.v gives the concrete instance). *)
From Coq Require Import String List Reals Lra Bool Arith.
From Verif Require Import PyBase RBase.
Import ListNotations.
Open Scope R_scope.

(** A time: (days since 1992-01-01, deltat in days). *)
Notation time := (R * R)%type (only parsing).

Record tide_args := {
  a_known : string -> bool;        (* constituent known to coefficients_table *)
  a_u : time -> string -> R;       (* pu, radians *)
  a_f : time -> string -> R;       (* pf *)
  a_G : time -> string -> R;       (* G, degrees *)
  a_omega : string -> R;           (* _constituent_parameters: rad/s *)
  a_phase : string -> R            (* _constituent_parameters: radians *)
}.

(** predict.py:149 [corrections in ('OTIS','ATLAS','TMD3','netcdf')] *)
Definition otis_type (corr : string) : bool :=
  existsb (String.eqb corr) ["OTIS"; "ATLAS"; "TMD3"; "netcdf"]%string.

(** predict.py:149-156: phase angle of constituent [c] (radians). *)
Definition theta (A : tide_args) (corr : string) (tm : time) (c : string) : R :=
  if otis_type corr
  then a_omega A c * fst tm * 86400 + a_phase A c + a_u A tm c
  else a_G A tm c * PI / 180 + a_u A tm c.

(** predict.py:158-159, 218-219, 278-279 *)
Definition component (pf th : R) (z : cpx) : R :=
  pf * cre z * cos th - pf * cim z * sin th.

(** One element of a masked complex array: value and mask (real and imaginary
    parts share the mask).  Arrays are taken to carry a full mask array. *)
Notation mcpx := (cpx * bool)%type (only parsing).

(** Body of the loops over constituents for one output element: accumulate the
    value and the mask.  [hc[:,k]] raises IndexError if there is no column k. *)
Fixpoint accumulate (A : tide_args) (corr : string) (tm : time)
    (cs : list string) (row : list mcpx) (acc : R * bool) : res (R * bool) :=
  match cs, row with
  | [], _ => Ok acc
  | _ :: _, [] => Err IndexError
  | c :: cs', (z, m) :: row' =>
      accumulate A corr tm cs' row'
        (fst acc + component (a_f A tm c) (theta A corr tm c) z, snd acc || m)
  end.

(** arguments.coefficients_table (arguments.py:388-392) raises ValueError for an
    unknown constituent before anything is summed. *)
Definition check_known (A : tide_args) (cs : list string) : res unit :=
  if forallb (a_known A) cs then Ok tt else Err ValueError.

Definition point (A : tide_args) (corr : string) (tm : time)
    (cs : list string) (row : list mcpx) : res (R * bool) :=
  accumulate A corr tm cs row (0, false).

(** predict.py:105-162 [map]: one time, one row of constants per output point.
    The final np.squeeze only drops unit dimensions. *)
Definition predict_map (A : tide_args) (corr : string) (tm : time)
    (hc : list (list mcpx)) (cs : list string) : res (list (R * bool)) :=
  do _ <- check_known A cs ;;
  mapM (point A corr tm cs) hc.

(** predict.py:165-222 [drift]: time i with row i; a single row broadcasts. *)
Definition predict_drift (A : tide_args) (corr : string) (ts : list time)
    (hc : list (list mcpx)) (cs : list string) : res (list (R * bool)) :=
  do _ <- check_known A cs ;;
  match hc with
  | [row] => mapM (fun tm => point A corr tm cs row) ts
  | _ => if (List.length hc =? List.length ts)%nat
         then mapM (fun p => point A corr (fst p) cs (snd p)) (combine ts hc)
         else match cs with
              | [] => Ok (List.map (fun _ => (0, false)) ts)
              | _ => Err ValueError
              end
  end.

(** predict.py:225-282 [time_series]: all times with the first row. *)
Definition predict_time_series (A : tide_args) (corr : string) (ts : list time)
    (hc : list (list mcpx)) (cs : list string) : res (list (R * bool)) :=
  do _ <- check_known A cs ;;
  match hc, cs with
  | _, [] => Ok (List.map (fun _ => (0, false)) ts)
  | [], _ => Err IndexError
  | row :: _, _ => mapM (fun tm => point A corr tm cs row) ts
  end.

(** ** Harmonic fit *)

(** solve/constants.py:103-118: one row of the design matrix. *)
Definition design_row (A : tide_args) (corr : string) (cs : list string) (tm : time) : list R :=
  1 :: flat_map (fun c => [a_f A tm c * cos (theta A corr tm c);
                           - a_f A tm c * sin (theta A corr tm c)]) cs.

Definition design (A : tide_args) (corr : string) (cs : list string) (ts : list time)
  : list (list R) := List.map (design_row A corr cs) ts.

Inductive solver := Lstsq | Gelsd | Gelsy | Gelss | Bvls | OtherSolver.

(** solve/constants.py:136-141: amplitude and phase of the k-th constituent from
    the parameters [p[2k+1]], [p[2k+2]]; phase[phase<0] += 360. *)
Definition amp_phase (a b : R) : R * R :=
  let ph := atan2 (- b) a * 180 / PI in
  (cabs (a, b), if Rlt_dec ph 0 then ph + 360 else ph).

Fixpoint amp_phases (p : list R) : list (R * R) :=
  match p with
  | a :: b :: p' => amp_phase a b :: amp_phases p'
  | _ => []
  end.

(** solve/constants.py:40-144.  The numerical least-squares routines are the
    oracle [lsq] (design matrix and data to parameters); the bounded solver is
    the oracle [bvls].  An unknown solver name leaves [p] unbound. *)
Definition solve (A : tide_args) (corr : string)
    (lsq bvls : list (list R) -> list R -> list R) (sv : solver)
    (ts : list time) (ht : list R) (cs : list string) : res (list (R * R)) :=
  if (List.length ts <=? 2 * List.length cs)%nat then Err ValueError
  else if negb (List.length ts =? List.length ht)%nat then Err ValueError
  else
    do _ <- check_known A cs ;;
    match sv with
    | Lstsq | Gelsd | Gelsy | Gelss => Ok (amp_phases (tl (lsq (design A corr cs ts) ht)))
    | Bvls => Ok (amp_phases (tl (bvls (design A corr cs ts) ht)))
    | OtherSolver => Err NameError
    end.
