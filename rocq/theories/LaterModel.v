(** Model of the cropping option of read_constants and of the extrapolation option of
    interpolate_constants for models with one file for each constituent
    (pyTMD/io/FES.py: read_constants 347-446, interpolate_constants 448-593; pyTMD/io/
    GOT.py: read_constants 313-389, interpolate_constants 392-535).

    Simplifications: those of SeriesModel, RegularModel, CropModel and ShoreModel. *)
From Coq Require Import Reals List Bool Arith ZArith.
From Verif Require Import PyBase RBase MathModel GeoModel GridModel InterpModel ExtractModel SeriesModel RegularModel CropModel ShoreModel.
Import ListNotations.
Open Scope R_scope.

(** FES.py:423-436, GOT.py:370-382: the buffer is used as it is given, and the grid step
    is that of the cropped model (IndexError with a single column) *)
Definition read_sheet (src : series) (crop : bool) (bounds : option limits) (buffer : R) (s : sheet) : res sheet :=
  do t <- (if crop then match bounds with Some b => if any_limit b then crop_sheet b buffer s else Ok s | None => Ok s end else Ok s) ;;
  extend_sheet src t.
(** FES.py:402-446, GOT.py:352-389: the axes of the last file are kept *)
Definition read_options (src : series) (crop : bool) (bounds : option limits) (buffer : R) (files : list sheet) : res tides :=
  do es <- mapM (read_sheet src crop bounds buffer) files ;;
  Ok (Tides (fold_left (fun _ e => Some (slon e, slat e)) es None) (map shc es)).

(** FES.py:536-562, GOT.py:466-506: nan or the fill value below the mask *)
Definition interpolated_field (w : way) (lon lat : list R) (f : field) (q : R * R) : res (gcell cpx) :=
  match w with
  | Quick Bilinear => cbilinear lon lat (map (map (filled Bilinear)) f) q
  | Quick Spline => cspline lon lat (map (map (filled Spline)) f) q
  | Regular me => cregular me lon lat (map (map (filled Spline)) f) q
  end.
(** FES.py:532-583, GOT.py:462-525: one constituent; nan below the mask before the
    extrapolation *)
Definition field_values (src : series) (w : way) (sc : R) (ex : option bound) (lon lat : list R) (f : field) (pts : list (R * R)) : res (list (option (R * R))) :=
  do hs <- mapM (fun q => do inv <- outside_sheet src lon lat q ;; do h <- interpolated_field w lon lat f q ;; Ok (inv, (h, hidden w h))) pts ;;
  let marked := map snd hs in
  let done := match ex with Some c => fill_in c (Sheet lon lat (map (map (filled Bilinear)) f)) pts marked | None => marked end in
  Ok (map (fun p => finished sc (fst p) (snd p)) (combine (map fst hs) done)).
(** interpolate_constants; without files there is no attribute longitude *)
Definition interpolate_options (src : series) (w : way) (sc : R) (ex : option bound) (t : tides) (pts : list (R * R)) : res (list (list (option (R * R)))) :=
  match taxes t with
  | None => Err AttributeError
  | Some (lon, lat) =>
      do pts' <- adjust lon pts ;;
      mapM (fun f => field_values src w sc ex lon lat f pts') (tfields t)
  end.
