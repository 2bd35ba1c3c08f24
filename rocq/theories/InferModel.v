(** Model of minor tide inference (pyTMD/predict.py:285-921).

    Nodal/equilibrium arguments are parameters: [tide_args] (PredictModel) for
    arguments.arguments, [minor_args] for arguments.minor_arguments (columns by
    index), [freq] for arguments.frequency, [gam] for 1 + k2 - h2 with the
    degree-2 Love numbers of arguments._love_numbers.  complex64 storage is
    modelled by real arithmetic.

    Arrays: [zmajor] has [nc] columns and one row per point; masks are carried
    with the values, except for the 'admittance' method, where the effect of
    np.dot on masks is not modelled (mask [false] is returned). *)
From Coq Require Import String List Reals Lra Bool Arith.
From Verif Require Import PyBase RBase StrBase PredictModel.
Import ListNotations.
Open Scope R_scope.

Record minor_args := {
  b_u : time -> nat -> R;      (* pu, radians *)
  b_f : time -> nat -> R;      (* pf *)
  b_G : time -> nat -> R       (* G, degrees *)
}.

(** predict.py:394-397 (and 541-544, 698-700, 857-859): column of the major
    constituent [c], case-insensitively.  [j1, = j] raises ValueError for
    duplicates, [zmajor[:,j1]] IndexError if there is no such column. *)
Fixpoint positions (c : string) (cs : list string) (j : nat) : list nat :=
  match cs with
  | [] => []
  | v :: cs' => if String.eqb (lower v) c then j :: positions c cs' (S j)
                else positions c cs' (S j)
  end.

Definition lookup (cs : list string) (nc : nat) (c : string) : res (option nat) :=
  match positions c cs 0 with
  | [] => Ok None
  | [j] => if (j <? nc)%nat then Ok (Some j) else Err IndexError
  | _ => Err ValueError
  end.

Definition found (l : list (option nat)) : nat :=
  List.length (filter (fun o => match o with Some _ => true | None => false end) l).

(** [z[:,i]]: normalised major constants of one row; zero if missing. *)
Definition pick (row : list mcpx) (o : option nat) (scale : R) : mcpx :=
  match o with
  | Some j => let '(z, m) := nth j row ((0, 0), false) in (cscale (/ scale) z, m)
  | None => ((0, 0), false)
  end.

(** predict.py:385, 424, 468-470: output length and broadcasting of times and
    rows ([n = nt if ((npts == 1) & (nt > 1)) else npts]). *)
Definition pairs (ts : list time) (rows : list (list mcpx)) : res (list (time * list mcpx)) :=
  match rows, ts with
  | [row], _ :: _ => Ok (map (fun tm => (tm, row)) ts)
  | _, [tm] => Ok (map (fun row => (tm, row)) rows)
  | _, _ => if (List.length ts =? List.length rows)%nat then Ok (combine ts rows)
            else Err ValueError
  end.

(** predict.py:413-416: indices of the requested minor constituents that are
    not supplied.  [minor or minor_constituents]: None and [] both mean all.
    Membership is case-sensitive. *)
Definition requested (minor : option (list string)) (names : list string) : list string :=
  match minor with
  | None | Some [] => names
  | Some l => l
  end.

Fixpoint select (cs req names : list string) (i : nat) : list nat :=
  match names with
  | [] => []
  | m :: names' =>
      if negb (mem_str m cs) && mem_str m req
      then i :: select cs req names' (S i) else select cs req names' (S i)
  end.

(** np.any of a list of integers: some element is non-zero. *)
Definition np_any (l : list nat) : bool := existsb (fun i => negb (i =? 0)%nat) l.

(** Value of one inference family: the scalar 0.0 or an array. *)
Inductive dh : Type := Scalar0 | Arr (l : list (R * bool)).

(** [dh += ...]: python scalar/array addition (masks unite). *)
Definition dh_add (a b : dh) : dh :=
  match a, b with
  | Scalar0, x => x
  | x, Scalar0 => x
  | Arr l, Arr l' => Arr (map (fun p => (fst (fst p) + fst (snd p), snd (fst p) || snd (snd p))) (combine l l'))
  end.

(** Loop [for k in minor_indices: dh += ...] for one output element. *)
Fixpoint sum_minor (f : nat -> R * bool) (idx : list nat) (acc : R * bool) : R * bool :=
  match idx with
  | [] => acc
  | k :: idx' => sum_minor f idx' (fst acc + fst (f k), snd acc || snd (f k))
  end.

(** Control flow common to the four families: look up the majors [cindex],
    give up with fewer than [need], select the minors, stop if np.any of the
    indices is false, then sum contributions point by point. *)
Definition family (cindex : list string) (need : nat) (names : list string)
    (contrib : time -> list (option nat) -> list mcpx -> nat -> R * bool)
    (cs : list string) (nc : nat) (rows : list (list mcpx)) (ts : list time)
    (minor : option (list string)) (raise_exception : bool) : res dh :=
  do cols <- mapM (lookup cs nc) cindex ;;
  if (found cols <? need)%nat
  then (if raise_exception then Err OtherError else Ok Scalar0)
  else
    let idx := select cs (requested minor names) names 0 in
    if negb (np_any idx) then Ok Scalar0
    else
      do ps <- pairs ts rows ;;
      Ok (Arr (map (fun p => sum_minor (contrib (fst p) cols (snd p)) idx (0, false)) ps)).

(** ** Short period (predict.py:341-472) *)

Definition sp_majors : list string := ["q1"; "o1"; "p1"; "k1"; "n2"; "m2"; "s2"; "k2"; "2n2"]%string.

Definition sp_minors : list string :=
  ["2q1"; "sigma1"; "rho1"; "m1b"; "m1"; "chi1"; "pi1"; "phi1"; "theta1"; "j1"; "oo1";
   "2n2"; "mu2"; "nu2"; "lambda2"; "l2"; "l2b"; "t2"; "eps2"; "eta2"]%string.

(** predict.py:425-442: admittance relations, as (major column, coefficient). *)
Definition sp_table : list (list (nat * R)) :=
  [[(0%nat, 263/1000); (1%nat, - (252/10000))];
   [(0%nat, 297/1000); (1%nat, - (264/10000))];
   [(0%nat, 164/1000); (1%nat, 48/10000)];
   [(1%nat, 140/10000); (3%nat, 101/10000)];
   [(1%nat, 389/10000); (3%nat, 282/10000)];
   [(1%nat, 64/10000); (3%nat, 60/10000)];
   [(1%nat, 30/10000); (3%nat, 171/10000)];
   [(1%nat, - (15/10000)); (3%nat, 152/10000)];
   [(1%nat, - (65/10000)); (3%nat, 155/10000)];
   [(1%nat, - (389/10000)); (3%nat, 836/10000)];
   [(1%nat, - (431/10000)); (3%nat, 613/10000)];
   [(4%nat, 264/1000); (5%nat, - (253/10000))];
   [(4%nat, 298/1000); (5%nat, - (264/10000))];
   [(4%nat, 165/1000); (5%nat, 487/100000)];
   [(5%nat, 40/10000); (6%nat, 74/10000)];
   [(5%nat, 131/10000); (6%nat, 326/10000)];
   [(5%nat, 33/10000); (6%nat, 82/10000)];
   [(6%nat, 585/10000)]].
Definition sp_coef (k : nat) : list (nat * R) := nth k sp_table [].

(** predict.py:444-457: the 'FES' case overrides some of them. *)
Definition sp_table_fes : list (nat * list (nat * R)) :=
  [(12%nat, [(7%nat, 69439968323/10^12); (4%nat, 351535557706/10^12); (5%nat, -46278307672/10^12)]);
   (13%nat, [(7%nat, -6104695053/10^12); (4%nat, 156878802427/10^12); (5%nat, 6755704028/10^12)]);
   (14%nat, [(7%nat, 16503557465/10^12); (4%nat, -13307812292/10^12); (5%nat, 7753383202/10^12)]);
   (16%nat, [(7%nat, 77137765667/10^12); (4%nat, -51653455134/10^12); (5%nat, 27869916824/10^12)]);
   (17%nat, [(7%nat, 180480173707/10^12); (4%nat, -20101177502/10^12); (5%nat, 8331518844/10^12)]);
   (18%nat, [(8%nat, 53285/10^5); (4%nat, -3304/10^5)]);
   (19%nat, [(5%nat, -34925/10^7); (7%nat, 831707/10^7)])].
Definition sp_coef_fes (k : nat) : list (nat * R) :=
  match find (fun p => (fst p =? k)%nat) sp_table_fes with
  | Some p => snd p
  | None => sp_coef k
  end.

(** [zmin[:,k]] from the re-ordered majors.  [zmin] is a plain array: masks are
    dropped. *)
Definition sp_zmin (corr : string) (z : list mcpx) (k : nat) : cpx :=
  fold_right (fun p acc => cadd (cscale (snd p) (fst (nth (fst p) z ((0, 0), false)))) acc)
    (0, 0) (if String.eqb corr "FES" then sp_coef_fes k else sp_coef k).

Definition sp_contrib (B : minor_args) (corr : string) (tm : time)
    (cols : list (option nat)) (row : list mcpx) (k : nat) : R * bool :=
  let z := map (fun o => pick row o 1) cols in
  let th := b_G B tm k * PI / 180 + b_u B tm k in
  (component (b_f B tm k) th (sp_zmin corr z k), false).

Definition infer_short_period (B : minor_args) (corr : string) :=
  family sp_majors 6 sp_minors (sp_contrib B corr).

(** ** Interpolation between three pivot waves (predict.py:599-621) *)

(** predict.py:601-608: linear interpolation in frequency; masks of the two
    pivots used. *)
Definition lin_interp (om0 om1 om2 w : R) (z0 z1 z2 : mcpx) : mcpx :=
  if (if Rlt_dec om0 om1 then (if Rlt_dec w om1 then true else false) else false)
  then let slope := cscale (/ (om1 - om0)) (csub (fst z1) (fst z0)) in
       (cadd (fst z0) (cscale (w - om0) slope), snd z0 || snd z1)
  else let slope := cscale (/ (om2 - om1)) (csub (fst z2) (fst z1)) in
       (cadd (fst z1) (cscale (w - om1) slope), snd z1 || snd z2).

(** predict.py:609-619: Munk-Cartwright admittance with matrix [Ainv]. *)
Definition adm_interp (Ainv : list (R * R * R)) (w : R) (z0 z1 z2 : mcpx) : mcpx :=
  let f := 2 * w * 86400 in
  let rowv r := let '(a, b, c) := r in
    cadd (cscale a (fst z0)) (cadd (cscale b (fst z1)) (cscale c (fst z2))) in
  let c i := rowv (nth i Ainv (0, 0, 0)) in
  (cadd (c 0%nat) (cadd (cscale (cos f) (c 1%nat)) (cscale (sin f) (c 2%nat))), false).

Inductive imethod := Linear | Admittance.

(** [kwargs['method'].lower()] with the assertion of lines 518 and 675. *)
Definition parse_method (s : string) : res imethod :=
  if String.eqb (lower s) "linear" then Ok Linear
  else if String.eqb (lower s) "admittance" then Ok Admittance
  else Err AssertionError.

(** Contribution of minor [k] (name [nth k names]) for a pivot family:
    pivots [nth i majors] with amplitudes [amaj i] (times the tilt factor
    [gamf] of the pivot frequency), minor amplitude [amin k]. *)
Definition pivot_contrib (A : tide_args) (freq : string -> R) (gamf : R -> R)
    (majors names : list string) (amaj amin : list R)
    (meth : imethod) (Ainv : list (R * R * R))
    (tm : time) (cols : list (option nat)) (row : list mcpx) (k : nat) : R * bool :=
  let om i := freq (nth i majors EmptyString) in
  let z i := pick row (nth i cols None) (nth i amaj 0 * gamf (om i)) in
  let name := nth k names EmptyString in
  let w := freq name in
  let zi := match meth with
            | Linear => lin_interp (om 0%nat) (om 1%nat) (om 2%nat) w (z 0%nat) (z 1%nat) (z 2%nat)
            | Admittance => adm_interp Ainv w (z 0%nat) (z 1%nat) (z 2%nat)
            end in
  let zmin := cscale (nth k amin 0 * gamf w) (fst zi) in
  let th := a_G A tm name * PI / 180 + a_u A tm name in
  (component (a_f A tm name) th zmin, snd zi).

(** ** Semi-diurnal (predict.py:474-627) *)
Definition sd_majors : list string := ["n2"; "m2"; "s2"]%string.
Definition sd_amaj : list R := [121006/10^6; 631931/10^6; 294019/10^6].
Definition sd_minors : list string :=
  ["eps2"; "2n2"; "mu2"; "nu2"; "gamma2"; "alpha2"; "beta2"; "delta2"; "lambda2"; "l2"; "t2";
   "r2"; "k2"; "eta2"]%string.
Definition sd_amin : list R :=
  [4669/10^6; 16011/10^6; 19316/10^6; 22983/10^6; 1902/10^6; 2178/10^6; 1921/10^6; 714/10^6;
   4662/10^6; 17862/10^6; 17180/10^6; 2463/10^6; 79924/10^6; 4467/10^6].
Definition sd_Ainv : list (R * R * R) :=
  [(33133/10^4, -42538/10^4, 19405/10^4); (-33133/10^4, 42538/10^4, -9405/10^4);
   (15018/10^4, -32579/10^4, 17561/10^4)].

Definition infer_semi_diurnal (A : tide_args) (freq : string -> R) (method : string)
    cs nc rows ts minor raise : res dh :=
  do meth <- parse_method method ;;
  family sd_majors 3 sd_minors
    (pivot_contrib A freq (fun _ => 1) sd_majors sd_minors sd_amaj sd_amin meth sd_Ainv)
    cs nc rows ts minor raise.

(** ** Diurnal (predict.py:629-795), with the tilt factor of the resonance *)
Definition di_majors : list string := ["q1"; "o1"; "k1"]%string.
Definition di_amaj : list R := [50184/10^6; 262163/10^6; 368731/10^6].
Definition di_minors : list string :=
  ["2q1"; "sigma1"; "rho1"; "tau1"; "beta1"; "m1a"; "m1b"; "chi1"; "pi1"; "p1"; "psi1"; "phi1";
   "theta1"; "j1"; "so1"; "oo1"; "ups1"]%string.
Definition di_amin : list R :=
  [6638/10^6; 8023/10^6; 9540/10^6; 3430/10^6; 1941/10^6; 20604/10^6; 7420/10^6; 3925/10^6;
   7125/10^6; 122008/10^6; 2929/10^6; 5247/10^6; 3966/10^6; 20618/10^6; 3417/10^6; 11293/10^6;
   2157/10^6].
Definition di_Ainv : list (R * R * R) :=
  [(31214/10^4, -38494/10^4, 1728/10^3); (-31727/10^4, 39559/10^4, -7832/10^4);
   (1438/10^3, -30297/10^4, 15917/10^4)].

Definition infer_diurnal (A : tide_args) (freq : string -> R) (gam : R -> R) (method : string)
    cs nc rows ts minor raise : res dh :=
  do meth <- parse_method method ;;
  family di_majors 3 di_minors
    (pivot_contrib A freq gam di_majors di_minors di_amaj di_amin meth di_Ainv)
    cs nc rows ts minor raise.

(** ** Long period (predict.py:798-921); always linear *)
Definition lp_majors : list string := ["node"; "mm"; "mf"]%string.
Definition lp_amaj : list R := [27929/10^6; 35184/10^6; 66607/10^6].
Definition lp_minors : list string :=
  ["sa"; "ssa"; "sta"; "msm"; "msf"; "mst"; "mt"; "msqm"; "mq"]%string.
Definition lp_amin : list R :=
  [4922/10^6; 30988/10^6; 1809/10^6; 6728/10^6; 5837/10^6; 2422/10^6; 12753/10^6; 2037/10^6;
   1687/10^6].

Definition infer_long_period (A : tide_args) (freq : string -> R)
    cs nc rows ts minor raise : res dh :=
  family lp_majors 3 lp_minors
    (pivot_contrib A freq (fun _ => 1) lp_majors lp_minors lp_amaj lp_amin Linear [])
    cs nc rows ts minor raise.

(** ** infer_minor (predict.py:285-338) *)
Definition infer_minor (A : tide_args) (B : minor_args) (freq : string -> R) (gam : R -> R)
    (corr method : string) (cs : list string) (nc : nat) (rows : list (list mcpx))
    (ts : list time) (minor : option (list string)) (raise : bool) : res dh :=
  do short <-
    (if String.eqb corr "GOT"
     then do a <- infer_semi_diurnal A freq method cs nc rows ts minor raise ;;
          do b <- infer_diurnal A freq gam method cs nc rows ts minor raise ;;
          Ok (dh_add (dh_add Scalar0 a) b)
     else do a <- infer_short_period B corr cs nc rows ts minor raise ;;
          Ok (dh_add Scalar0 a)) ;;
  do long <- infer_long_period A freq cs nc rows ts minor raise ;;
  Ok (dh_add short long).
