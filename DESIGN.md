# Formal model of pyTMD (Rocq/Coq 8.16.1)

Source: `/repo` (tsutterley/pyTMD at the pinned commit), read as text only.
Model, specifications and proofs: `rocq/theories` (logical root `Verif`).

## Conventions

* `*Model.v`  : Gallina transcription of the code, function by function, every
  definition with a comment citing file and lines and listing simplifications.
* `*Spec.v`   : small independent specifications (when a property needs more
  vocabulary than the model's API).
* `*Proofs.v` : lemmas.
* `*Props.v`, `*PropsN.v` : the property theorems, each followed by `Print
  Assumptions` and accompanied by an `Example` meeting its hypotheses.
* `*Data.v`   : tables generated from the files of the package by `tools/gen_*.py`.

A theorem whose name ends in `_partial` proves part of its claim (what is missing is
said beside it); one that ends in `_refuted` shows that the claim fails in the model,
with a witness or for a whole class of inputs.  `tools/manifest.py` writes
MANIFEST.json from the theorem names and `tools/notes.json`; `tools/design.py`
rewrites the generated sections of this file.

Exceptions are values (`res A := Ok a | Err e`).  numpy masked arrays are lists
of (value, mask) pairs; broadcasting is modelled element-wise.

Arithmetic:

* trigonometric / continuous code is modelled over Coq's classical reals `R`
  (floating point rounding is **not** modelled);
* longitudes of grids and query points, where only comparisons, additions and
  multiples of 360 occur, are modelled over `Z` in an arbitrary fixed-point unit
  (`u` units per degree, `u > 0`): every finite set of doubles is a set of
  integers in a fine enough unit, so this loses no generality except rounding;
* Doodson coefficients, file offsets, sizes: `Z` / `nat`;
* names: Coq `string` (bytes).

## Trusted base

* Coq's kernel (and `coqchk` for the recheck).
* The axioms printed by `Print Assumptions`, listed for every theorem in the last
  section.  They are axioms of the standard library only: those of `Reals`
  (`ClassicalDedekindReals.sig_forall_dec`, `ClassicalDedekindReals.sig_not_dec`,
  `FunctionalExtensionality.functional_extensionality_dep`) and, for some lemmas of
  real analysis, `Classical_Prop.classic`.  The discrete developments are closed.
* The reading of the Python code: nothing is extracted or executed.  numpy semantics
  are as described in the comments of the models (slicing, the sign of `np.mod`, the
  first-tie rule of `argmin`, unions of masks, broadcasting along named axes).
* The tables in `*Data.v` are what `tools/gen_*.py` read in the package's files.
* Contracts of libraries that are parameters of the models: pyproj (a function of one
  point), timescale (functions of one time), scipy's kd-tree (nearest node below a
  bound), least squares (a minimiser of the residual), netCDF4 and h5py (as stated at
  the top of `WriteModel.v` and `CodecModel.v`), the `_Encoding` attribute of netCDF4
  (`AtlasNcModel.v`), GDAL (`GeotiffModel.v`), fill values of numpy masked arrays and
  the YAML loader (`CsvModel.v`), scipy's bivariate spline of degree one and
  RegularGridInterpolator (`ExtractModel.v`, `MaskModel.v`, `RegularModel.v`), JPL ephemerides (a position
  per time), pandas, pyarrow, shapely and osr (`ParquetModel.v`), re.match
  (`LookupModel.v`).

## What is modelled

| file in /repo/pyTMD | modelled | in | not modelled |
|---|---|---|---|
| `predict.py` | all | PredictModel, InferModel, EarthModel | masks of the `admittance` method (returned false) |
| `solve/constants.py` | 40-144 | PredictModel | the numerical solver (any minimiser) |
| `arguments.py` | all, with the three tables of the potential in `data/` | ArgModel, DoodsonModel, NodalBase, NodalData, PotentialModel, PotentialData | |
| `astro.py` | all but the kernel download, with the IERS tables 5.2e, 5.3a, 5.3b | AstroModel, NutationModel, NutationData | JPL positions, time scales |
| `math.py` | all | MathModel | |
| `ellipse.py` | all | EllipseModel | |
| `spatial.py` | 166-186, 223-766, 768-2275, `data_type` | WriteModel, CsvModel, GeotiffModel, ParquetModel, LookupModel, GeoModel, UtilModel | URL input |
| `crs.py` | all, with pyproj as a parameter | DatumModel, CrsModel | access by key (`__getitem__`, `__setitem__`) |
| `interpolate.py` | bilinear, extrapolate, `_distance`, spline of degree one, regulargrid linear and nearest | InterpModel, ExtractModel, RegularModel | splines of higher degree, cubic and other methods of scipy |
| `compute.py` | 167-1509 | ComputeModel, ElevationModel, MaskModel | |
| `io/constituents.py` | all | ConstModel, ParseModel, CodecModel | |
| `io/model.py` | selection, database, definition files, requests | ObjModel, DefModel | paths of the file system |
| `io/OTIS.py` | binary, ATLAS-compact and TMD3 files, extension, shift, crop, longitude conventions, extraction, reading and interpolation, combination of local models, files from their bytes to heights | OtisModel, OtisFilesModel, GridModel, ExtractModel, MergeModel, Tmd3Model, CoastModel, NarrowModel, FjordModel | limits and depths that are not finite |
| `io/ATLAS.py` | extension, shift, crop, longitude conventions, netCDF files, extraction, reading and interpolation | GridModel, AtlasNcModel, ReefModel, LagoonModel | |
| `io/GOT.py`, `io/FES.py` | ascii and netCDF files, extension, shift, crop, extraction, reading and interpolation | AsciiModel, CodecModel, GridModel, SeriesModel, CropModel, ShoreModel, LaterModel | |
| `io/IERS.py` | ocean pole tide map | IERSModel | gzip |
| `scripts/reduce_OTIS_files.py` | 82-226, reading and writing OTIS grids; 95-136 for ATLAS-compact grids | ReduceModel, ReduceAtlasModel, ReduceAtlasModel2 | the casts to single precision (parameters), permissions, command line |
| `scripts/compute_*.py` | from the arguments to the dictionary written, of all six programs | ScriptModel | parsing of arguments, attributes, writers other than the shapes of text columns |
| `compute_tide_corrections.py`, `check_points.py`, `eop.py`, `time.py`, `__init__.py` | statements binding names, run in order; bodies of the wrappers | WrapModel | constants, docstrings |
| `tools.py` | 184-301, the map and its observers | LeafModel | 60-182, widgets and tables of tiles; `transform` |
| `scripts/gsfc_got_tides.py`, `scripts/aviso_fes_tides.py` | 54-130; 116-387 | DownModel | the connections, tar, gzip and lzma are parameters; log, permissions |
| `scripts/verify_box_tpxo.py` | 83-136 | NetModel | the host is a list of entries |
| `scripts/arcticdata_tides.py`, `scripts/usap_cats_tides.py` | 56-107, 52-94 | ZipModel | the package is a parameter; permissions, log and browser left out |
| `utilities.py` | url_split, roman_to_int, even, ceil, argument files; get_hash, get_unix_time, listings and downloads, login and tokens, copies of files | UtilModel, NetModel, LoginModel, CopyModel | connections; hash functions and parsers of dates are parameters |

Exact arithmetic stands for floating point throughout: rounding, overflow and dtype
conversions are outside the model, except where a theorem is about bit patterns (C35
to C38, and C81 for the values of stored numbers) or about a tolerance of the code itself (C18, C20, C27).

## Results

<!-- results -->
| id | property | status | theorems | note |
|----|----------|--------|---------:|------|
| C01 | Tide prediction is linear in the harmonic constants | proved | 4 |  |
| C02 | Tide prediction does not depend on constituent order and adds over groups | proved | 2 |  |
| C03 | The three predictors agree point by point | proved | 2 |  |
| C04 | Predicted tide is a sum of cosines bounded by the nodal-corrected amplitudes | proved | 3 |  |
| C05 | A predicted value is masked exactly when one of its constants is masked | proved | 4 |  |
| C06 | Solving for constants inverts prediction | proved | 2 |  |
| C07 | Minor tides are never inferred for constituents that were supplied | partial | 2 | Supplied minors (lower case) are not inferred; refuted for names in another case. |
| C08 | Every requested minor constituent is inferred | partial | 8 | Sum over exactly the requested and missing minors, proved when the request is not the single first minor; refuted with the np.any([0]) witness. |
| C09 | Minor inference degrades to zero or an error when majors are missing | proved | 3 |  |
| C10 | Doodson numbers identify constituents | partial | 9 | Injectivity, rejection, positional value, table round trip, dictionary form and case rules proved; round trip characterised exactly (iff) and refuted for numbers that end in 0 without X/E. |
| C11 | Extended Doodson strings identify constituents | partial | 9 | Round trip, injectivity, string direction and alphabet proved for -8..16; rejection outside refuted (-33..-9 wrap by negative indexing), which affects the shipped constituents 2t7, s9, s10, s11, s12. |
| C12 | Equilibrium arguments only depend on the astronomical longitudes modulo 360 degrees | proved | 4 |  |
| C13 | Nodal corrections are periodic in the node and perigee longitudes | partial | 6 | Refuted for the FES scheme: l2 and constituents built on it (and minor column 15) mix degrees of perigee with radians, so are not periodic in p. Everything else proved. |
| C14 | Compound tide nodal corrections are products of their parents | partial | 9 | Product/sum rule proved for the 140 compounds the code handles and positivity for all constituents; refuted for msk6/snk6 (wrong sign), o2 (substring match with ko2), 146 tabulated compounds without a branch, and for parents with own GOT/perth3 factors. |
| C15 | Constituent frequencies are the time derivative of the equilibrium argument | proved | 6 |  |
| C16 | Rotation matrices are rotations | partial | 12 | rotate, precession, nutation and polar motion proved to be rotations (and the documented products); the frame bias matrix is refuted as an exact isometry and proved to 3e-13, hence the terrestrial product likewise. |
| C17 | Local ENU conversion is an isometry and is inverted by its inverse | proved | 8 |  |
| C18 | Geodetic to Cartesian conversion is correct and invertible | proved | 19 | to_cartesian proved to give the documented surface, normal and directions; the spherical, Moritz, Bowring and closed-form inverses proved exact at their fixed points, the Moritz iteration proved to converge with an explicit error bound for any batch, the closed form proved to invert exactly, and coordinates above the evolute proved unique. |
| C19 | Closed-form geodetic conversion treats every point independently | partial | 3 | Closed form exact for batches without polar points and for all-polar batches; batch independence refuted for mixed batches (polar point changes its neighbours). |
| C20 | Ellipsoid conversions are consistent | partial | 17 | Offsets, identity, kept meridian coordinate, special bands and array behaviour proved, and that the Newton iteration reaches the exact position (quadratic convergence); identity refuted within eps radians of the pole, and 'caller arrays not modified' refuted for latitudes beyond the poles. |
| C21 | Longitude wrapping keeps the meridian | proved | 5 |  |
| C22 | Degrees-minutes-seconds conversion round trips | partial | 4 | Decomposition and reverse proved; the round trip is proved for 0 and for |d| >= 1 degree and refuted for every 0 < |d| < 1 (sign(degrees) is 0, so the angle is lost). |
| C23 | Polar stereographic area scale factors are consistent | proved | 6 |  |
| C24 | Datum parameters satisfy the ellipsoid identities | proved | 15 |  |
| C25 | Normal gravity formula constant k is b*gamma_b/(a*gamma_a)-1 | partial | 7 | dk proved to be minus the flattening for every datum, hence refuted as Somigliana's constant for every named ellipsoid; Pizzetti's theorem and the equator/height-zero consistency proved. |
| C26 | Tidal ellipse conversion round trips | proved | 5 |  |
| C27 | Bilinear interpolation reproduces and is bounded by the grid | partial | 9 | Exactness proved away from nodes (outside the 1e-5 relative snapping tolerance), nodes, bounds, masking, independence from invalid corners and outside points proved; exactness refuted near nodes (snapping), and a point on a cell edge whose only valid corners are opposite gets an unmasked nan. |
| C28 | Every point accepted as inside the grid by bilinear interpolation has an answer | partial | 4 | Every point whose longitude is not the last grid longitude is served; the last longitude is accepted by the validity test and raises ValueError in every grid, failing the whole batch. |
| C29 | Nearest-neighbour extrapolation honours its cutoff and finds the nearest valid node | proved | 4 | Proved for geographic and projected grids, for all grids, points and cutoffs; the kd-tree query is described (trusted) as nearest node with distance below the bound. |
| C30 | Global grid extension is periodic | proved | 3 |  |
| C31 | Shifting a global grid keeps data attached to its meridian | partial | 6 | Data/meridian association, completeness, monotonicity and exact base column proved; 'never fails' refuted (fails exactly when the nearest column is the first). |
| C32 | Cropping keeps exactly the nodes in the buffered bounds | proved | 4 | Exact node set, failure condition and neighbour preservation without convention change; soundness with convention change. |
| C33 | The longitude convention applied to query points is per point | partial | 6 | Proved for OTIS read+interpolate and FES/ATLAS extract; refuted with witnesses for OTIS extract (batch dependence) and FES/ATLAS read+interpolate, with the proved restrictions in the _partial theorems. |
| C34 | Ocean pole tide coefficients cover all longitudes | partial | 3 | Record placement proved; coverage of (179.75,180] refuted, coverage of [-180,179.75] proved. |
| C35 | OTIS grid files round trip | partial | 3 | Everything but the mask is read back for big-endian arrays; the mask is refuted (the bathymetry is written twice, so the mask that is read does not depend on the mask written), and arrays in native byte order are refuted (tofile ignores its format argument). |
| C36 | OTIS elevation and transport files round trip | partial | 4 | Elevations and transports of any shape are read back for every constituent index; refuted for names longer than four characters, which shift every record. |
| C37 | Constituent names in OTIS files round trip | partial | 2 | Names of at most three characters (four for the last one) are read back; adjacent four-character names are refuted (they fuse). |
| C38 | Compact ATLAS files are read record by record without losing synchronisation | partial | 4 | Proved for any sequence of local solutions (elevations, transports, bathymetry) whose constituent names are separable by blanks; refuted when a four-character name fuses with the next, which hides that constituent of the local solution. |
| C39 | GOT and FES ascii grids are read back exactly | partial | 6 | Proved for every grid with at least one full line per row and a shorter last line; grids narrower than a line (unbound loop variable) and grids whose rows fill their lines exactly cannot be read, proved for all such sizes; rows whose last line lost all but its first value are read without an exception, that value spread over the missing ones. |
| C40 | Masked cells never become tides when writing and reading model files | partial | 10 | Round trip of values, masks and names proved for GOT files and for heights in FES files. Refuted: currents (u, v) cannot be written in FES form, names longer than four characters cannot be written, a cell with zero tide comes back masked from a FES file, files written cannot be read as FES2012 or HAMTIDE11. |
| C41 | The constituents container keeps its list and its data in step | partial | 9 | Refinement of an ordered list of named values for every history of proper calls (a name appended once, items assigned to listed names, no name of the class itself); refuted with witnesses for duplicate names, unlisted item assignment, class names and nested iteration. |
| C42 | Constituent name parsing is idempotent and total on known names | partial | 8 | Leftmost standing name for every ASCII text, any case, idempotent, total on the 68 known names (exceptions mtide and s20 stated); refuted for the 403 other tabulated constituents, 198 of which are taken for another constituent. |
| C43 | Model object results do not depend on previous use of the object | partial | 11 | Proved: a successful selection gives the definition with its files placed in the directory, for an object with any history; attributes of the definition do not depend on the history; extracting and interpolating twice. Refuted: attributes that the definition does not mention (scale, version, projection) stay; after a model with a grid file one without cannot be selected (NameError); constituents cached before a new selection are used after it; append_node on FES gives more names than columns the second time. |
| C44 | Extra model databases extend, never remove, built-in models | partial | 5 | The extra database replaces the whole table: a database with an elevation table removes every built-in elevation model it does not list (C44_builtin_lost_refuted). Characterised for any number of databases. |
| C45 | Model definitions round trip through dictionaries | partial | 7 | Round trip, serialization of regular values and validation are proved. Refuted: the documented format FES-ascii is rejected; an empty list raises IndexError; paths after a non-path element are not serialized. |
| C46 | Computed corrections do not depend on how the request is packaged | partial | 13 | Long period, load pole, ocean pole and model tide routines return one value per point however the request is packaged. The solid earth grid is off by a day (refuted), the case of TYPE is not uniform (refuted) and few constituents with inference raise (refuted). |
| C47 | Writing outputs does not modify the caller's data and loses nothing | partial | 17 | What each writer puts in the file proved for every conforming drift, grid and time series dataset and for HDF5; netCDF read back proved to give the same arrays and masks; any run, failed or not, changes nothing of the caller's but fill values. Refuted: the caller's attributes are changed (fill values popped), so a second write loses them; appending never works; HDF5 loses masks and scalars; attribute lookup by prefix. |
| C48 | Data type detection separates drift, grid and time series | partial | 2 | The classification is characterised for all sizes; two-dimensional meshes passed with a time axis of another length are refuted. |
| C49 | Long-period equilibrium tides are symmetric, zonal and linear in the potential | partial | 10 | Full value and shape of the equilibrium tide, symmetry, zero, bound, additivity proved. Refuted: 'mf+' has 2s+N in the predictors but 2s-N here; the node tide appended to a model is constant in time under OTIS-type corrections. |
| C50 | Pole tide displacements are geometrically consistent | proved | 8 | Off the axis of rotation; polar motion and mean pole (timescale package) are parameters. |
| C51 | Solid earth tides are the elastic response to the tide generating potential | proved | 4 | Off the axis of rotation (at the poles the code divides by zero); sun and moon coordinates are parameters. |
| C52 | Astronomical mean longitudes are normalised | partial | 12 | Moon, sun, perigee and node proved; the solar perigee is returned unnormalised (refuted), its value is proved. |
| C53 | Small utilities | partial | 7 | Proved for all inputs; url_split does not terminate on a path containing an empty directory next to the root (recursion limit), stated as a refutation. |
| C54 | Masked major constants give masked inferred minor tides | partial | 3 | Short-period family drops masks (refuted), pivot families propagate them. |
| C55 | Legendre functions and spherical harmonics have their mathematical values | partial | 6 | legendre and assoc_legendre (all degrees and orders) proved; assoc_legendre(0) fails (refuted); sph_harm carries an extra factor sin(theta) (refuted, exact factor proved). |
| C56 | Approximate sun and moon positions are rotations of their ecliptic positions | partial | 5 | Positions, distances and bounds proved; unknown ephemerides names fall through (refuted). |
| C57 | The tabulated constituent parameters agree with the Doodson numbers and mean longitudes | partial | 5 | Species, omega, phase and resulting prediction phase proved for all 33 rows; refuted for constituents outside the table, which silently get omega = phase = 0. |
| C58 | Doodson coefficients of compound tides are the signed sum of those of their parents | partial | 4 | Proved for all compounds except eleven rows of doodson.json which are refuted; 2mn6/2mnu6 and 3mn8/3mnu8 coincide. |
| C59 | Named ellipsoids carry their published dimensions | partial | 3 | Proved for thirteen of the fifteen names; refuted for GRS80 and NAD83, which carry the WGS72 axis and flattening. |
| C60 | Minor inference reproduces an ocean in equilibrium | partial | 6 | Exact for the three pivot families and both methods; within 1.2 per cent (3 per cent with FES) for the short-period relations except l2b, refuted with FES (it receives the coefficients of the larger L2 line, almost four times too much); without FES corrections eps2 and eta2 get nothing. |
| C61 | Each request reads the files of the requested component | partial | 4 | Proved for elevations, ATLAS and OTIS, and for reading FES. Refuted for extracting FES currents, where the whole dictionary is passed as the list of files. |
| C62 | Every built-in model can be selected | proved | 4 |  |
| C63 | Definition files round trip | partial | 5 | Proved for files in lists, for single OTIS elevation files and for patterns searched in a directory, of elevations and of currents. Refuted for single files of other formats and for all OTIS currents, which come back as a list of characters. |
| C64 | The pole and solid earth routines return the radial displacement | proved | 3 |  |
| C65 | Masks and depths at the edges of the cells of a C-grid | partial | 4 | Masks proved in full. Depths proved except in the first column of regional grids, where the code makes the mask as if the grid were global (refuted there). |
| C67 | Axes of OTIS grids are the cell centres between the limits of the file | proved | 3 | Proved. |
| C68 | Constants extracted from an OTIS model are those of the nodes around the point | partial | 15 | Bilinear and linear spline extraction characterised for every grid, mask and list of points through the longitude convention the code chooses; partial because the first zonal column of regional grids (C65) is left out and for splines all file values are finite. Refuted: independence from the other points (regional models; global models with a point just west of Greenwich), any result when a point is on the last column, agreement of reading and extracting in the first half cell of velocities and for masked constituents with splines. |
| C66 | Combined ATLAS solutions have the local values where local solutions are valid and the resampled global ones elsewhere | partial | 7 | Values, masks and placement characterised for every grid and list of local solutions on the globe; refuted: resampling across the Greenwich seam, placement of local solutions whose limits are cell edges (one cell west and south) and of a row at latitude -90 (put in the northernmost row). Coordinates are exact reals. |
| C69 | Constants extracted from FES and GOT files are those of the nodes around each point | partial | 11 | Values characterised for every file, point and method on evenly spaced grids whose files share one longitude convention, for points from -360 to 540 degrees. Refuted: values on the first and last rows and any result with a point on the last column (bilinear), nothing outside of the model (GOT with splines), independence of the other files (files of mixed convention), agreement of reading and extracting (global models from 0 to 360 and a batch of points in the western hemisphere given as 180 to 360). No cropping, extrapolation or linear and nearest methods. |
| C70 | ATLAS netCDF grid and constituent files are read back as they were written | partial | 9 | Axes, depths and constants are characterised for every shape; refuted: masked constants come back as zeros that are not masked, names written are not read back (the variable is declared with an encoding, under which netCDF4 returns one string of at least fifteen characters), names of more than four characters cannot be written. netCDF4 itself is a contract (a dataset holds what was put in its variables). |
| C71 | Constants extracted from ATLAS netCDF files are those of the nodes around each point | partial | 14 | Values and depths characterised for every file, point and method on evenly spaced grids. Refuted: any result with a point on the last column (bilinear), repeating an interpolation (a bilinear one changes the bathymetry that was read, after which splines lose velocities on the edges of cells with land), agreement of reading and extracting (nodes within a cell of the meridian and points given as 180 to 360 degrees). No cropping, extrapolation or linear and nearest methods. |
| C72 | The check of points against the domain of a tide model accepts the points it has water for | partial | 14 | For every format that is read, every method and list of points: exactly which points are accepted; agreement with bilinear extraction proved for ATLAS models from 0 to 360 degrees within cells away from nodes. Refuted: agreement with spline extraction beside land, between the last column and 360 degrees and for models from -180 to 180; western points with linear and nearest (asked for as given, not as 0 to 360); any answer for numbers and for tables of more than one row, for FES-ascii, GOT-netcdf and with bilinear for a point on the last column. |
| C73 | Geotiff images are read with the coordinates of their pixels, cropped to what the bounds touch and written back unchanged | partial | 14 | Whole images, windows and their coordinates, masks and extents characterised for every image; read, written and read again is the same for one band. Refuted: pixels with their centres within the bounds are left out when both fractions are large, bounds given as the edges of the image return no data, a no-data value of zero masks nothing, masks of arrays are not written, several bands are written with their axes exchanged, and the default driver cannot create files (GDAL contract). Exact real numbers. |
| C74 | Columns of text are read field by field and written so that they are read back | partial | 11 | conversions of numbers and dates to and from text and the YAML parser are parameters; that values of a header are texts (BaseLoader) and that numpy refuses a text as fill value of numbers is a contract of the model; delimiters are one character, digits ascii; opening and compression left out |
| C75 | TMD3 files are read from south to north, and the constants extracted from them are those of the file | partial | 7 | exact real numbers, no cropping or extrapolation; composition with the extraction of C68 at nodes (bilinear); that masked netCDF cells are assigned with their fill values is a contract of the model |
| C76 | Nutation, equation of the equinoxes and sidereal time are those of the IERS tables | partial | 13 | exact real arithmetic except for the single precision of the coefficients as read; sidereal time, terrestrial time and the factor from table units to radians are parameters of the timescale package; numbers with exponents in the tables are taken to be malformed. Refuted: planetary arguments, obliquity, sidereal time, files that end early |
| C77 | The tables of the tide-generating potential agree with the Doodson codec, the equilibrium tide and the constituents | partial | 11 | All lines and files (C77_line, C77_line_only, C77_table), Doodson's notation (C77_decoded), all rows of the shipped tables (C77_numbers), the long-period equilibrium tide against the whole table for all times and latitudes (C77_long_period, C77_lines, C77_largest), amplitudes of the constituents (C77_amplitudes). False as written: all terms above 1 mm are used (C77_one_millimetre_refuted), the amplitude of M1 (C77_m1_refuted). |
| C78 | The heights of a request are those of the constants in the files of the tide model | partial | 15 | Composition of the models of extraction (C68, C69, C71) with the prediction of a request (C46): at nodes and within cells the heights are those of the file constants; C78_constants without the assumption that nodes have all constants or none. Bilinear interpolation; splines go through C78_request with the extracted constants. Refuted as stated: C78_last_column_refuted (a point on the last column of nodes makes the request raise), C78_points_refuted (a point east of a regional model masks all points of the request). |
| C79 | Tables written to parquet files are read as they were | partial | 8 | Proved in full under the stated hypotheses (C79_round_trip, C79_geometry, C79_columns, C79_refused). Refuted: without a reference system (C79_no_reference_refuted, C79_no_geometry_refuted), with two pairs of coordinates (C79_coordinates_refuted), with the index written (C79_index_refuted). pandas, pyarrow, shapely and osr are contracts. |
| C80 | Files are found by their name in any case and read by their format | partial | 11 | The search is characterised for names without special characters other than the dot (C80_found, C80_missing) and for names with signs of repetition after single characters (C80_signs, C80_signs_missing, with the instances of a name as an inductive relation); the claim holds if no other file begins like the name (C80_ignoring_case_partial) and is refuted otherwise (C80_prefix_refuted, C80_dot_refuted, C80_plus_refuted, C80_special_refuted). |
| C81 | Heights from OTIS files are those of the numbers stored in their bytes | proved | 5 | Composition of the readers of OTIS files (C35-C37) with extraction and prediction (C68, C78): the layout of the files is specified byte by byte in OtisFilesSpec, independently of the readers and writers, with the value of single-precision patterns. Bilinear interpolation; limits and depths are finite; exact arithmetic on the stored numbers; the names are legible (C37_fused_refuted shows what happens to others). |
| C82 | The linear and nearest-neighbour methods return the constants of the nodes around each point | partial | 23 | Characterised for every point of FES, GOT, ATLAS netCDF and OTIS models on evenly spaced grids; scipy's RegularGridInterpolator is its documented contract. Results equal to numpy's fill value (1e20) are excluded from the statements (unfilled). Refuted for OTIS models: the mask of a constituent is not used (C82_otis_mask_refuted: the number under it is interpolated), and zeros of the water count as 1e20 once the constituents have been read (C82_otis_zero_refuted). C82_otis_read_heights and C82_otis_read_inside prove the equality of both ways where no constant of the water is masked or zero. No cropping, no extrapolation; cubic and other methods of scipy are not modelled. |
| C83 | Cropping a model to the bounds of a request does not change its constants | partial | 16 | Characterised for FES and GOT with the spline, bilinear, linear and nearest methods (C83_spline, _cell, _node, _linear, _nearest), in the vocabulary of CropSpec.v; C83_same_spline and C83_same_linear state the equality with the extraction without cropping. Refuted at the seam: between the last column and the first one a cropped FES model has nothing where the whole model has a constant (C83_seam_refuted), a cropped GOT model has the value of its first column (C83_edge_refuted); a model whose first column is the nearest one to the meridian of the cut cannot be cropped (C83_first_column_refuted, ValueError). Extrapolation is C84. Not covered: OTIS and ATLAS models, C83_outside for spacings below 1/200 degree. |
| C84 | Extrapolated constants come from the nearest valid node within the cutoff | partial | 7 | Characterised by comparison with the same request without extrapolation (C84_filled for whole models, C84_cropped for cropped ones), whose constants are those of C69, C82 and C83 (C84_off, _off_whole, _off_regular); C84_errors: the same exceptions. The distance is defined in ShoreSpec.v independently of the code's conversion. Refuted: cropping to the points' own bounds keeps the extrapolated constants (C84_crop_refuted: the nearest valid node can be farther away than the buffer). Among nodes at equal distance the theorem leaves open which one is taken. Spline, linear and nearest need numbers under the mask. Not covered: OTIS and ATLAS models, C84_cropped for spacings below 1/200 degree or models wider than the globe, Cartesian axes. |
| C85 | Extrapolated constants of OTIS models come from the nearest valid node within the cutoff | partial | 7 | Characterised by comparison with the same request without extrapolation (C85_filled), which is the extraction of C68 and C82 constituent by constituent (C85_off, _off_regular, _off_returns); C85_errors: the same exceptions; C85_returns: when it returns. Refuted: velocities are divided by the depth (C85_velocity_refuted: where the depth at the point is masked, the numpy.ma quotient keeps the transport). Among nodes at equal distance the theorem leaves open which one is taken. Spline, linear and nearest need numbers under the mask of the constituent. Not covered: zonal variables of regional models (the depths of their first column, C65), cropped models. |
| C86 | Cropping an OTIS model to the bounds of a request does not change its constants | partial | 10 | C86_model: extraction with cropping is extraction (C68, C82, C85) from the model of the rows and columns kept; C86_cell: in terms of the whole model for bilinear interpolation; C86_reading the same for read_constants; C86_off, C86_whole, C86_empty, C86_returns. Refuted for currents: the axes the constituents are cropped with are lowered by half a step in place (C86_zonal_refuted, C86_meridional_refuted: no result where the first column or row kept is less than half a step within the bounds; C86_default_refuted: with the bounds of the points that is so whenever the westernmost point lies in the western half of a cell of heights). Cell by cell only for cropped models that do not go around the globe; spline, linear and nearest through C86_model only. Geographic grids with spacing above 1/250 degree and at most 360 degrees of columns. |
| C87 | Extrapolated constants of ATLAS models come from the nearest wet node within the cutoff | partial | 7 | C87_off and C87_off_regular: without the options extraction is that of C71 and C82; C87_errors, C87_kept: exceptions, depths and names do not change; C87_filled: which points are filled and from which node, for every method; C87_returns. Refuted for velocities: where the depth is masked they are divided by 1e20/100 with bilinear interpolation and by the depth interpolated with zeros on land otherwise (C87_filled, C87_velocity_refuted). Cropping is C88. |
| C88 | Cropping an ATLAS model to the bounds of a request does not change its constants | partial | 8 | C88_model: extraction with cropping is extraction (C71, C82, C87) from the model of the rows and columns kept, where that leaves the longitudes of the points as they are; C88_cell, C88_spline (also method linear), C88_nearest: in terms of the whole model; C88_filled: extrapolated constants come from the nearest wet node that is kept, for every method; C88_returns, C88_empty (C87_off: bounds that are all zero are none; C87_errors and C87_kept hold with cropping too). Refuted for extrapolation: the nearest wet node of the whole model may have been cropped (C88_fill_refuted). Grids with spacing above 1/250 degree and at most 360 degrees of columns; cells of the seam of a model around the globe that is kept whole through C88_model only. |
| C89 | Reading an FES or GOT model and interpolating it later gives the constants of extraction, with cropping and extrapolation | partial | 10 | C89_reading_off, C89_interpolation_off: without the options reading and interpolation are those of C69 and C82; C89_read: reading and interpolating is extraction, with extrapolation; C89_cropped: also for a model cropped when it is read, at the points in the longitudes of the columns kept; C89_spline: that in terms of the whole model; C89_filled: which points are filled and from which node; C89_errors, C89_empty. Differences: a single column kept is an IndexError when the model is read (C89_single); the default buffer is zero when a model is read and four columns when it is extracted (C89_default_refuted). Grids with spacing above 1/200 degree and at most 360 degrees of columns when cropped; all files of a model have the same grid; splines and linear interpolation for constants that are numbers also under the mask. |
| C90 | Reading an ATLAS model and interpolating it later gives the constants of extraction, with cropping and extrapolation | partial | 12 | C90_reading_off, C90_interpolation_off: without the options reading and interpolation are those of C71 and C82; C90_read: reading and interpolating is extraction, with extrapolation; C90_model: reading with cropping is reading the model of the rows and columns within the bounds, for any margin; C90_cropped: interpolating it is extraction with cropping, at the points in the longitudes of the columns kept; C90_filled, C90_filled_cropped: which points are filled and from which node; C90_errors, C90_left, C90_empty. Differences: a single column kept is an IndexError when the model is read (C90_single); the default buffer is zero when a model is read and four columns when it is extracted (C90_default_refuted). Grids with spacing above 1/250 degree and at most 360 degrees of columns when cropped; splines and linear interpolation for constants that are numbers also under the mask; points in the frames of C71. |
| C91 | Extrapolation of OTIS constituents that were read | partial | 10 | C91_errors: the same exceptions; C91_off, C91_off_regular: without the option interpolation is that of C68 and C82; C91_filled: which points are filled and from which node, compared with the result without extrapolation; C91_read_heights, C91_read_inside: the same as extraction (C85) for heights, and for all variables at points within the nodes of the variable; C91_returns: when it returns. Refuted: zero constants of water count as 1e20 for the regular grid methods (C91_zero_refuted); bilinear velocities where the depth is not a number are lost (C91_nan, C91_edge_refuted), so C91_read_inside excludes bilinear velocities. Splines: masked constants only on land; regular grid methods: constants of water that are not masked and not zero; numbers under the mask. |
| C92 | Coordinate systems found and used whatever was asked before | partial | 10 | C92_found: how a description is read; C92_get: all or nothing; C92_held: system, direction and name after any sequence of calls, by induction over the calls; C92_transform, C92_convert: every result and exception; C92_round_trip; C92_dictionary, C92_describe: exceptions that escape. Refuted: a convert that fails leaves the request as name beside the former system (C92_name_refuted); transform without direction goes backwards after a convert backwards (C92_forward_refuted). pyproj and int() of a string are parameters. |
| C93 | Reduction of OTIS grids to a region | partial | 12 | C93_grid: from the bytes of the file to the bytes of the reduced file and back, where the new limits are exact in single precision; C93_empty: the exceptions; C93_name, C93_distinct, C93_base: the name; C93_forever: no end where nothing can be created. Refuted: the mask is lost (C93_mask_refuted, from C35) and no constituents are ever written (C93_constituents_refuted); open boundary nodes keep the indices of the whole grid and western longitudes come back 360 degrees higher (C93_grid). ATLAS-compact grids: C93_atlas (the parts of the combined depths and mask of C66, with the outer edges of their cells), C93_atlas_file (the bytes of the file, read back); refuted: boxes in negative longitudes are an IndexError (C93_atlas_west_refuted) and of boxes across Greenwich only the east is kept (C93_atlas_greenwich_refuted). |
| C94 | Programs computing corrections for a file give what the library gives for its points | partial | 16 | C94_elevations, C94_currents, C94_long_period, C94_load_pole, C94_ocean_pole, C94_solid_earth: agreement with the library for every type; C94_projection: the system used and every exception; C94_csv_lines, C94_csv_elevations: the lines of a track; C94_lengths, C94_formats: exceptions. Refuted: grids of solid earth tides of more than one point (C94_solid_earth_grid_refuted), text files with the default names of columns (C94_columns_refuted), grids and stations in text files (C94_csv_refuted), the spelling of types (C94_types_refuted), the unit given for times given as argument (C94_unit_refuted). Readers, pyproj and timescale are parameters; of the writers only the shapes required by to_ascii are modelled; exact real arithmetic without NaN. |
| C95 | Deprecated functions do what they stand for | partial | 9 | C95_eop, C95_wrappers, C95_compute_corrections, C95_same_choice, C95_package: the wrappers and the names of the package. Refuted: every function of pyTMD/time.py is an AttributeError, as the class defined at the end of the module takes the name of the package its functions look in (C95_time_refuted, where the class timescale.time.Timescale has no attribute named time); under any other name of the class all of them are right (C95_time_renamed). The contents and behaviour of other packages are parameters; case conversion is ASCII. |
| C96 | The interactive map shows the location of its marker | partial | 7 | C96_wrap, C96_marker, C96_typed, C96_cursor, C96_init. Refuted: the map goes back to the marker when it is moved, and stays where it is when the marker is moved (C96_center_refuted); without the argument marker_control the map is a KeyError (C96_default_refuted). The widgets are modelled by the values read and assigned, with notification on change as in traitlets; exact real arithmetic, the sign of zero is not modelled. |
| C97 | Downloading a tide model brings every file asked for up to date, and doing it again changes nothing | partial | 20 | C97_names, C97_inside, C97_got, C97_got_ends, C97_got_table, C97_plan, C97_fes, C97_fes_only, C97_fes_again, C97_fes2022. Refuted: the currents of FES2014 are never downloaded and end the run with an exception (C97_currents_refuted), those of FES2022 are never asked for (C97_currents2022_refuted); a member name can reach any local file (C97_inside_refuted); files with an underscore as second character are passed over (C97_hidden_refuted); with GZIP all files are compressed, also those whose name does not say so (C97_gzip_refuted); what was written of an interrupted download counts as the file from then on (C97_interrupted_refuted, C97_fes_interrupted_refuted). The hosts, tar, gzip and lzma are parameters; directories, permissions and the log are not modelled. C97_fes2014_database, C97_fes2022_database: FES2014 and FES2022 are where the database looks for them; C97_fes2012_refuted: FES2012 is not, as its directory is flattened. |
| C98 | Listings of hosts keep every name with its time, and files fetched are those of the host | partial | 20 | C98_listing, C98_base, C98_ftp, C98_http, C98_cddis, C98_iers, C98_uhslc, C98_copy, C98_from_http, C98_from_ftp, C98_hash, C98_no_hash, C98_kernel, C98_box, C98_timegm, C98_unix_time. Refuted: a row of a page with a name and no time shifts the times of all rows that follow (C98_http_refuted); the offset of a time read by its format is dropped (C98_zone_refuted), as in verify_box_tpxo; a time without offset read by dateutil depends on the machine (C98_machine_refuted); from_jpl_ssd with a local file stores the default kernel in it under any name (C98_kernel_refuted). The hosts' answers, hash functions and parsers of dates are parameters. |
| C99 | Extracting the Arctic models leaves their files, and nothing else, in the directory of the model | partial | 6 | C99_arctic, C99_arctic_ends, C99_arctic_again, C99_database. Refuted: a directory of the package whose name has a word of the pattern ends the run with an exception (C99_directory_refuted); usap_cats_tides returns before its download and changes no file (C99_usap_refuted). The package is a parameter; zipfile.extract is modelled by its documented treatment of names. |
| C100 | The login tries credentials in turn and ends with those accepted, and a token is requested once | partial | 14 | C100_login, C100_stored, C100_given, C100_retries, C100_opener, C100_tokens, C100_token_login, C100_cddis. Refuted: where the password is stored or given, a failing login is an UnboundLocalError and not tried again (C100_retry_refuted); a pair asked for after the last retry is not tried, and the prompt keeps the first user name (C100_asked_refuted); credentials given are not used if the .netrc file has an entry (C100_given_refuted); the functions on tokens do not use the environment (C100_environment_refuted); redirects are followed whatever is asked (C100_redirect_refuted). A request to CDDIS without credentials has the header "None:None" (C100_cddis_refuted). The host is a set of accepted pairs. |
| C101 | A copied or moved file arrives whole, and an interrupted copy loses nothing | partial | 6 | C101_copy, C101_crash, C101_errors, C101_bytes, C101_linked (a replaced file is replaced under all of its names). Refuted: a file that is replaced is emptied first, and has neither its old nor its new bytes where the copy is interrupted then (C101_replaced_refuted). Special files are not modelled, the calls of shutil are from the standard library. |
<!-- end results -->

## Findings

Behaviour of the code that the proofs brought out.  Each is either a `_refuted`
theorem or follows from a characterisation; where no theorem is named it was seen
while writing the model.

### predict.py
* `np.any([0])` is false, so a request for the single first minor constituent infers
  nothing (C08); `minor=[]` means all; supplied minors in upper case are inferred a
  second time (C07); masks are dropped by the short-period family (C54).
* infer_minor returns the python number 0.0 when nothing is inferred, after which
  `compute.tide_elevations` raises AttributeError (C46).
* With FES corrections the coefficients of L2 go to column 16 instead of 15, and the
  minor `l2b` gets almost four times too much (C60); without FES corrections eps2 and
  eta2 get zero.
* The node tide appended to a model is constant in time under OTIS corrections (C49).
* The solid earth tide divides by zero on the axis of rotation (C51).
* The IERS diurnal row (0,1,0,1,-1) is probably a misprint.

### arguments.py and doodson.json
* The nodal correction of l2 (FES) mixes degrees of perigee with radians, as does minor
  column 15 (C13).
* msk6 and snk6 have the wrong sign of K2; `o2` is matched inside `ko2`; 146 tabulated
  compounds have no branch and get f=1, u=0 (C14).
* Eleven rows of doodson.json disagree with the names of their compounds (C58).
* Constituents outside the table of 33 silently get omega = phase = 0 (C57).
* Doodson numbers ending in 0 without X or E do not survive the round trip (C10); the
  extended numbers -33..-9 wrap through negative indices (C11).
* `arguments` and `frequency` use N where the table counts N', so the nodal rate of
  sidelines such as mf+ has the opposite sign (C49).

* The comment of equilibrium_tide speaks of the fifteen terms greater than 1 mm; terms of
  up to 2.04 mm are left out.  The error is below 10 mm at any time and latitude.  The
  equilibrium amplitude of m1 is that of j1 and five times that of the third-degree term
  which its Doodson coefficients name; the others agree with the table to 0.8 % (C77).

### astro.py and math.py
* The cubic coefficient of the mean obliquity (2.0034e-4) is a tenth of that of the IAU
  2006 model (0.0020034); the nutation series ignores the multipliers of the planets, in
  which 658 and 473 rows differ (bounded by 11040 and 5532 microarcseconds); the apparent
  sidereal time adds the equation of the equinoxes in radians divided by 24 to a time in
  turns; the equation of the equinoxes takes the cosine of the true obliquity where the
  mean one belongs; a table file that ends early gives zero terms silently (C76).
* The frame bias matrix is only orthogonal to 3e-13 (C16).
* The solar perigee is returned unnormalised (C52); an unknown ephemerides name returns
  None (C56).
* assoc_legendre(0) raises IndexError; sph_harm has an extra factor sin(theta) (C55).

### spatial.py
* from_dms loses every angle with 0 < |d| < 1 degree (C22).
* The closed form inverse lets a point on the axis change its neighbours in a batch
  (C19); convert_ellipsoid changes the caller's latitudes beyond the poles (C20).
* The writers pop `_FillValue` from the caller's dictionaries, so writing the same data
  twice gives files without fill values; append mode never works; HDF5 files lose masks
  and scalars; attributes whose names begin alike are dropped on reading; a square grid
  has x on the y dimension; an unknown data type gives an empty file (C47).
* A two-dimensional mesh with as many cells as times is classified as drift (C48).

* geotiff: pixels with centres inside the bounds are left out, as the offset and the count
  are truncated separately; bounds equal to the edges of the image return nothing; bounds
  that begin west of it return coordinates counted from the end and no data; a no-data
  value of 0 masks nothing; masks are not written; several bands are written with their
  axes exchanged; the default driver has no Create (C73).
* text columns: `_FillValue` in the YAML header is always a TypeError; masks are not
  written; the letter D of dates becomes E; without a delimiter dates and nan shift the
  columns; an attribute containing the end mark ends the header; a header without an end
  gives an empty table (C74).
* parquet: a table written with the default arguments has no reference and can never be
  read (KeyError); a geoparquet table without a reference is a NameError; with lon, lat,
  x and y together the points are (lon, x) and two columns are lost; a written index
  beside a column of times is a ValueError on reading (C79).
* the search for a file in any case takes its name for a regular expression at the
  beginning of names: `tide.nc` finds `tide.nc.old` even if `TIDE.NC` is there, dots match
  any character, names with signs of repetition are not found or raise (C80).

### crs.py
* GRS80 and NAD83 carry the axis and flattening of WGS72 (C59).
* `dk` uses gamma_b twice and so equals minus the flattening (C25).
* Only one of a_axis and flat given is silently ignored (C24).
* a `convert` that does not find its system leaves the request as `name` and the former
  system in place, so that a following `transform` uses a system other than the one named
  (C92_name_refuted).
* after a `convert` backwards, `transform` without `direction` goes backwards as well, and
  after a letter that is neither F nor B it passes None to pyproj and the instance cannot be
  printed (C92_forward_refuted, C92_describe).
* a dictionary that pyproj refuses raises TypeError rather than CRSError where it is given as
  the input system (C92_dictionary).

### time.py
* Every function of the module is an AttributeError: the class of line 343 is named
  `timescale`, as the package imported in line 56 is, and the functions look that name up
  when they are called.  This supposes that the class timescale.time.Timescale has no
  attribute `time`; the package is not part of the repository (C95).

### tools.py
* `marker_control` has no default, unlike all other arguments: `leaflet()` is a KeyError,
  after the map has been made (lines 187-194, 247) (C96).
* `set_map_center` observes the map, not the marker (line 262): moving the marker leaves the
  centre, and moving the map puts it back on the marker (C96).

### scripts/aviso_fes_tides.py, scripts/gsfc_got_tides.py
* `aviso_fes_tides` for FES2014 with currents lists three more files but only one more tar
  mode: `zip` stops, the two archives of velocities are never downloaded, and the readme file
  is opened as a tar file, an exception. For FES2022 the option is ignored
  (`C97_currents_refuted`, `C97_currents2022_refuted`).
* In both programs what was written of a file when a download is interrupted has the present
  time, hence counts as up to date: the next run skips it (`C97_interrupted_refuted`,
  `C97_fes_interrupted_refuted`).
* With `GZIP` both programs compress every file, but only change the names ending in `.d`,
  `.asc` or `.nc`: readme files are unreadable (`C97_gzip_refuted`).
* The patterns `^.DS` and `^._` of `gsfc_got_tides` do not escape the dot: every file with an
  underscore as second character, such as `k_1.nc`, is passed over (`C97_hidden_refuted`).
* Members of a tar file with an absolute name or with `..` are written outside the local
  directory (`C97_inside_refuted`).
* FES2012: the tar file of the heights is flattened into `fes2012` (line 179), while the
  database looks for the files in `fes2012/data`, where a run without currents leaves nothing
  (`C97_fes2012_refuted`). FES2014 and FES2022 are where it looks (`C97_fes2014_database`,
  `C97_fes2022_database`).

### utilities.py, on hosts
* `http_list` reads the names and the times of a page separately: a row with a name and no
  time shifts the times of all rows that follow, or is an IndexError (`C98_http_refuted`).
* `get_unix_time` drops the offset from UTC when the format reads it (`calendar.timegm` does
  not use it), but not when dateutil does: `verify_box_tpxo` sets times that are off by the
  offset that Box sends (`C98_zone_refuted`). Times without offset that only dateutil reads
  are taken in the zone of the machine (`C98_machine_refuted`).
* `from_jpl_ssd(local=...)` stores the default kernel in a file of any name, as the name of
  the kernel is only taken from the file if it is given as None (`C98_kernel_refuted`).

### utilities.py, copies
* `copy` empties a file that it replaces before it writes to it: interrupted then, the old bytes
  are lost and the new ones are not there (C101_replaced_refuted).  The source is safe at every
  point (C101_crash).

### utilities.py, login
* `attempt_login` binds `prompt` only if the password was missing. With a stored or given
  password that the host refuses, the second attempt is an UnboundLocalError, after the user
  name has been asked for (line 1023; `C100_retry_refuted`).
* After the last retry a user name and a password are asked for and not tried, and the prompt
  for a password names the first user whoever was typed since (`C100_asked_refuted`).
* An entry of the .netrc file comes before the credentials given by the caller
  (`C100_given_refuted`).
* `get_token`, `list_tokens` and `revoke_token` pass `username=None` on, which keeps
  `setdefault` from using EARTHDATA_USERNAME and EARTHDATA_PASSWORD
  (`C100_environment_refuted`).
* `build_opener(redirect=False)` follows redirects all the same, as urllib adds the handler by
  default (`C100_redirect_refuted`).
* `cddis_list` and `from_cddis` with `build=False` and no credentials send a header with the
  credentials `None:None`, whatever opener is in use; with a user name only, the password is
  `None` (`C100_cddis_refuted`).

### scripts/arcticdata_tides.py, scripts/usap_cats_tides.py
* arcticdata_tides.py: members are selected by their whole name and then stripped to the last
  component. A directory with a word of the pattern in its path (`data/h_files/`) is left with
  the empty name, which is an exception, and the members after it are not extracted
  (`C99_directory_refuted`).
* usap_cats_tides.py: the function returns at line 76; the download that follows is not reached
  and no file is changed (`C99_usap_refuted`). The comment there says that this is intended.

### scripts/compute_*.py
* compute_SET_displacements.py: a grid is a ValueError unless it has one point, as the
  coordinates are not flattened before the rotation matrices are filled (lines 247-271;
  the library flattens them) (C94).
* Text files with the default names of columns (time, lat, lon, data) are a KeyError: the
  programs look for x and y, and unlike the other readers from_ascii does not rename (C94).
* Grids and stations cannot be written to text files: a ValueError after the file has been
  created (C94).
* The type is tested in any case but compared as written: `Grid` is a NameError; so is
  every unknown type in compute_OPT_displacements.py, which does not test it (C94).
* Times given as argument are read in the unit of the file even if their unit is given as
  well (C94).

### scripts/reduce_OTIS_files.py
* the names of the files of constituents are looked up in a dictionary that is never filled:
  the script writes the reduced grid and ends with a KeyError for every model with heights
  or currents (C93_constituents_refuted); the transports would also be written to a key
  other than the one that is set.
* the land mask of the reduced grid is lost with the second copy of the depths (C35,
  C93_mask_refuted).
* the indices of the open boundary nodes stay those of the whole grid (C93_grid).
* the columns of a combined ATLAS-compact grid run from 0 to 360 degrees and the box is not
  wrapped: where the transformed corners have negative longitudes, the region is an IndexError
  (C93_atlas_west_refuted) or loses its part west of Greenwich without a message
  (C93_atlas_greenwich_refuted).
* the search for a new name takes every OSError for an existing file and never ends in a
  directory where files cannot be created (C93_forever).

### interpolate.py
* Every grid refuses the last longitude it accepts as valid, failing the whole batch
  (C28); points near nodes are snapped, and two opposite valid corners on an edge give
  an unmasked nan (C27).

### compute.py
* The solid earth grid is a day off (C46); 'Grid' is accepted and then raises NameError;
  a grid with equal one-dimensional axes gives one diagonal; long period drift with
  different numbers of points and times gives an outer product.

* tide_masks: linear and nearest interpolation use the coordinates as they are given, so
  western points are never valid on grids from 0 to 360, and on grids from -180 to 180 the
  other methods make them invalid; points between the last column and 360 are invalid;
  single numbers and arrays of more than one row raise ValueError, FES-ascii NameError;
  splines say valid beside land where extraction with splines gives nothing; with bilinear
  interpolation the first and last rows are invalid; netCDF files of GOT are read as text
  and the depths of OTIS are ignored (C72).
* METHOD is checked in lower case but compared as written by the readers: 'Bilinear' passes
  the check and goes to RegularGridInterpolator.
* One point of a request decides about the others: a point exactly on the last column makes
  the request raise, one east of a regional model masks all others (C78).

### io
* Extraction: points exactly on the last column raise with bilinear interpolation (C68,
  C69, C71, C72); a point beyond one edge of a regional model shifts the longitudes of the
  whole batch, and on a global grid points on either side of the seam exclude each other
  (C68); bilinear interpolation of FES and GOT gives nothing on the first and last rows
  (C69_rows_refuted); GOT splines return values anywhere outside (C69); grids of mixed
  convention alternate between the files (C69_alternate_refuted).
* Reading first and interpolating then differs from extraction: velocities in the half
  cells at the edges (splines clamp to the shifted nodes, bilinear gives none), the mask of
  the constituents is ignored by splines (C68_mask_refuted), the global test compares
  exactly instead of within a tolerance, the default `type` is missing (KeyError), western
  points on grids from 0 to 360 are not found (C69_read_refuted, C71_read_refuted), FES
  and GOT keep the axes of the last file only.
* The methods linear and nearest: for OTIS models the mask of the constituents is replaced
  by that of the depths, so that numbers under the mask are interpolated
  (C82_otis_mask_refuted); once the constituents have been read, zeros and masked numbers
  of the water count as numpy's fill value and a neighbour of one gets an amplitude of
  some 1e19 (C82_otis_zero_refuted).  Extraction uses the zeros.
* Cropping: between the last and the first column of a model around the globe a cropped FES
  model has no constants although the whole one does (C83_seam_refuted), and a cropped GOT
  model returns the value of its first column (C83_edge_refuted); cropping fails with
  ValueError if the first column is the nearest one to the meridian where the model would
  be cut (C83_first_column_refuted); bounds that are all zero are ignored (C83_zero).
* Extrapolation depends on the cropping and on the model (C84): with the default bounds
  only nodes within four columns of the points are kept, so a point whose nearest valid
  node is farther away has a constant with the whole model and none with the cropped one,
  even without a cutoff (C84_crop_refuted). Points beyond the rows of a FES model stay
  empty, while a GOT model fills them at any distance (C84_filled, C84_nearest_case).
* Extrapolated velocities are not divided by a depth: where the depth at the point is
  masked, as on land, `np.abs(hci.data)/unit_conv` keeps the numerator (numpy.ma) and its
  mask is dropped, so transports in m2/s are returned as velocities in cm/s
  (C85_velocity_refuted).  Where the depth is there but the constant is not, they are.
* `OTIS.interpolate_constants` with `extrapolate` and scipy's regular grid methods: zeros
  become 1e20 (line 872) before the search for valid nodes leaves out the zeros (line 888),
  so a point on land next to water without a tide gets the amplitude 1e20; extraction gives
  nothing there (C91_zero_refuted).
* `OTIS.interpolate_constants`, bilinear velocities: the depth interpolated between land and
  water can be not a number without being masked (a point exactly on the meridian or parallel
  where the land ends); the extrapolated velocity is then lost, whereas extraction, which
  masks such depths (line 378), returns the transport (C91_nan, C91_edge_refuted).
* Extrapolated velocities of ATLAS models (C87) are divided by `D.data/100`: with bilinear
  interpolation D.data is the fill value 1e20 where the depth is masked, so points on land
  get velocities near zero that are not masked; with the other methods it is the depth
  interpolated with zeros on land, zero itself inland (C87_velocity_refuted).
* Cropped ATLAS models (C88) are extrapolated from the nodes within the bounds and the buffer
  only: a point on land whose nearest node with water lies farther away than four columns has
  a constant without cropping and none with it (C88_fill_refuted). With cropping the points
  are not brought to the longitudes of the model, so that explicit bounds in one convention
  and points in the other give nothing (the `beyond_kept` case of C88_filled).
* The default buffer for cropping is four columns in `extract_constants` of FES, GOT and
  ATLAS models (a buffer of zero means the default too) but zero in `read_constants` (C89,
  C90): the same bounds between two columns give constants with the one and an IndexError
  with the other (C89_default_refuted, C90_default_refuted). With a single column within the
  bounds reading is an IndexError as well, since the step is measured after the cropping
  (C89_single, C90_single).
* Cropping and currents of OTIS models (C86): `_crop` returns slices of the axes, so
  `xi -= dx/2` and `yi -= dy/2` also lower the axes the constituents are cropped with
  afterwards.  If the first column (row) kept is less than half a step within the bounds
  and the buffer, the constituents of zonal (meridional) currents lose it, the depths do
  not, and `hc.mask |= bathymetry.mask` raises ValueError.  With the bounds of the points
  that is so for every request for zonal currents whose westernmost point lies in the
  half of a cell before a column, and alike for rows with dy = dx (C86_zonal_refuted, C86_meridional_refuted, C86_default_refuted).  Zonal
  currents of geographic models that are shifted or extended are not affected.
* `_interpolate_zeta` ignores is_global (C65).  Local models are placed half a cell west
  and south when they are combined (a whole cell if the limits are edges), the row at -90
  wraps to the northernmost one, rows north of 90 raise IndexError, and nothing wraps at
  the seam (C66).
* ATLAS netCDF: names cannot be read after writing, names longer than four characters are
  refused, masks become zeros (C70); interpolating changes the stored bathymetry (C71).
* TMD3: the masks of the netCDF variables are dropped, so missing cells count with their
  fill values; velocities are shifted by half a cell as on a C-grid (C75).
* OTIS.output_otis_grid writes the bathymetry twice and no mask (C35); the byte order
  argument of `tofile` is ignored (C35, C36); names of four characters fuse (C37, C38)
  and longer names shift records (C36).
* The shift of a grid fails when the nearest column is the first (C31); reading then
  interpolating FES and ATLAS fails to adjust longitudes, extracting from OTIS does it
  for the whole batch (C33); the ocean pole tide map misses (179.75, 180] (C34).
* GOT and FES ascii files whose rows fill their lines exactly, or narrower than a line,
  cannot be read, and a last line cut to one value is spread silently (C39); FES output of currents fails, names longer than four characters
  fail, a cell of zero tide is read back masked (C40).
* constituents: duplicate append, item assignment without listing, class names, nested
  iteration (C41); 198 tabulated names are parsed as another constituent (C42).
* model: attributes of an earlier selection stay, selecting a model without a grid file
  after one with it raises NameError, cached constituents survive a new selection (C43);
  an extra database removes built-in models (C44); the documented format FES-ascii is
  rejected, serializing an empty list raises IndexError (C45); extracting FES currents
  passes the whole dictionary (C61); single files in definition files become lists of
  characters (C63).

## Wrong programs

`seeded/LOG.jsonl` records, one per line, the edits made to scratch copies of the model
as realistic bugs, the claim each breaks and the theorems that stopped proving.  Where
an edit survived and was not equivalent, theorems were added or tightened and the edit
tried again.

## Not modelled

Network access, the netCDF4, HDF5, GDAL and pandas libraries themselves, scipy splines
and kd-trees (contracts above), pyproj, JPL ephemerides, the external `timescale`
package, floating point rounding, performance.

## Assumptions of each theorem

<!-- assumptions -->
**Closed under the global context** (251 theorems)

* `AsciiProps`: `C39_got_partial`, `C39_fes_partial`, `C39_narrow_refuted`, `C39_exact_width_refuted`, `C39_got_exact_width_refuted`
* `AsciiProps2`: `C39_cut_refuted`
* `AstroProps`: `C56_ephemerides_names_partial`
* `AtlasNcProps`: `C70_names`
* `AtlasNcProps4`: `C71_other`
* `AtlasProps`: `C38_elevation_partial`, `C38_fused_names_refuted`, `C38_transport_partial`, `C38_grid`
* `CodecProps`: `C40_got_nan`, `C40_variable_names`
* `ComputeProps4`: `C46_corrections`
* `ConstProps`: `C41_refinement`, `C41_get_last`, `C41_pop`, `C41_iteration`, `C41_duplicate_refuted`, `C41_setitem_unlisted_refuted`, `C41_update_method_refuted`, `C41_property_name_refuted`, `C41_nested_iteration_refuted`
* `CopyProps`: `C101_copy`, `C101_crash`, `C101_errors`, `C101_replaced_refuted`, `C101_linked`, `C101_bytes`
* `CrsProps`: `C92_found`, `C92_get`, `C92_held`, `C92_transform`, `C92_convert`, `C92_round_trip`, `C92_dictionary`, `C92_describe`, `C92_name_refuted`, `C92_forward_refuted`
* `CsvProps2`: `C74_read`, `C74_header`, `C74_unended`
* `CsvProps3`: `C74_round_trip`, `C74_round_trip_header`
* `CsvProps4`: `C74_masks_refuted`, `C74_dates_refuted`, `C74_date_fields_refuted`, `C74_nan_refuted`, `C74_closing_refuted`, `C74_fill_refuted`
* `DefProps`: `C63_round_trip_partial`, `C63_single_file_refuted`, `C63_otis_current_refuted`, `C63_patterns`
* `DefProps2`: `C63_current_patterns`
* `DoodsonProps`: `C10_roundtrip_iff_partial`, `C10_roundtrip_refuted`, `C10_injective`, `C10_rejects`, `C10_number_value`, `C10_table_roundtrip`, `C10_dictionary`, `C10_case_insensitive`, `C10_unknown_name`, `C11_roundtrip`, `C11_injective`, `C11_rejects_outside_partial`, `C11_rejects_outside_refuted`, `C11_string_roundtrip`, `C11_bad_string_rejected`, `C11_alphabet`, `C11_table_roundtrip_partial`, `C11_table_roundtrip_refuted`
* `DownProps`: `C97_names`, `C97_inside`, `C97_inside_refuted`
* `DownProps2`: `C97_got_table`
* `DownProps3`: `C97_plan`
* `ElevationProps4`: `C78_directory`
* `GeotiffProps2`: `C73_default_refuted`
* `GridProps`: `C30_extension_periodic`, `C30_extension_periodic_got`, `C30_extension_total`, `C31_shift_keeps_meridian`, `C31_shift_loses_nothing`, `C31_shift_increasing`, `C31_shift_base`, `C31_shift_success_iff`, `C31_shift_never_fails_refuted`, `C32_crop_exact`, `C32_crop_success_iff`, `C32_crop_shifted_sound`, `C32_crop_keeps_neighbours`, `C33_otis_interpolate_all_longitudes`, `C33_fes_extract_all_longitudes`, `C33_otis_extract_refuted`, `C33_otis_extract_partial`, `C33_fes_interpolate_refuted`, `C33_fes_interpolate_partial`, `C34_records_land_in_their_cell`, `C34_coverage_refuted`, `C34_coverage_partial`
* `LegendreProps`: `C55_assoc_legendre_total_refuted`
* `LoginProps`: `C100_login`, `C100_asked_refuted`, `C100_stored`, `C100_retry_refuted`, `C100_given`, `C100_given_refuted`, `C100_environment_refuted`, `C100_tokens`, `C100_redirect_refuted`, `C100_opener`, `C100_retries`, `C100_token_login`, `C100_cddis`, `C100_cddis_refuted`
* `LookupProps`: `C80_exists`, `C80_found`, `C80_missing`, `C80_ignoring_case_partial`, `C80_prefix_refuted`, `C80_dot_refuted`, `C80_special_refuted`, `C80_from_file`
* `LookupProps2`: `C80_signs`, `C80_signs_missing`, `C80_plus_refuted`
* `NetProps`: `C98_listing`
* `NetProps2`: `C98_base`, `C98_ftp`, `C98_http`, `C98_http_refuted`, `C98_cddis`, `C98_iers`, `C98_uhslc`, `C98_copy`, `C98_from_http`, `C98_from_ftp`, `C98_hash`, `C98_no_hash`, `C98_kernel_refuted`, `C98_kernel`
* `NetProps3`: `C98_box`, `C98_timegm`, `C98_zone_refuted`, `C98_machine_refuted`, `C98_unix_time`
* `ObjProps`: `C44_one_database`, `C44_none`, `C44_last_database`, `C44_builtin_lost_refuted`, `C44_errors`
* `ObjProps2`: `C43_elevation`, `C43_history_partial`, `C43_stale_refuted`, `C43_stale_scale_refuted`
* `ObjProps3`: `C43_current`, `C43_missing_file`, `C43_reselect_refuted`, `C43_extract_twice`, `C43_append_node_refuted`, `C43_interpolate_twice`, `C43_interpolate_stale_refuted`
* `ObjProps4`: `C45_round_trip`, `C45_serialize`, `C45_empty_list_refuted`, `C45_mixed_list_refuted`, `C45_validate`, `C45_validate_twice`, `C45_documented_refuted`
* `ObjProps5`: `C61_elevation`, `C61_currents_partial`, `C61_no_component`, `C61_fes_currents_refuted`, `C62_elevation`, `C62_constituents`, `C62_current`, `C62_corrections`
* `OtisProps`: `C35_grid_partial`, `C35_mask_refuted`, `C35_native_refuted`, `C36_elevation`, `C36_transport`, `C36_index`, `C36_long_name_refuted`, `C37_names_partial`, `C37_fused_refuted`
* `ParquetProps`: `C79_no_geometry_refuted`, `C79_refused`
* `ParseProps`: `C42_leftmost`, `C42_case`, `C42_canonical`, `C42_file_name`, `C42_idempotent`, `C42_total`, `C42_errors`, `C42_tabulated_refuted`
* `PhaseProps`: `C58_coefficients_partial`, `C58_coefficients_refuted`, `C58_duplicates_refuted`
* `PotentialProps`: `C77_decoded`, `C77_numbers`
* `ReduceProps2`: `C93_name`, `C93_distinct`, `C93_base`, `C93_constituents_refuted`, `C93_forever`
* `ScriptProps`: `C94_projection`
* `Tmd3Props`: `C75_names`
* `UtilProps`: `C53_url_split`, `C53_url_split_double_slash_refuted`, `C53_arguments`, `C53_roman_value`, `C53_roman_inverse`, `C48_classification`, `C48_mesh_refuted`
* `WrapProps`: `C95_time_refuted`, `C95_time_renamed`, `C95_time_class`, `C95_time_attribute`, `C95_eop`, `C95_wrappers`, `C95_compute_corrections`, `C95_same_choice`
* `WrapProps2`: `C95_package`
* `WriteProps`: `C47_only_fill_partial`, `C47_only_fill_hdf5_partial`, `C47_drift`, `C47_grid`, `C47_series`, `C47_hdf5`, `C47_netcdf_read`, `C47_hdf5_read_partial`, `C47_caller_changed_refuted`, `C47_twice_refuted`, `C47_append_refuted`, `C47_append_hdf5_refuted`, `C47_unknown_kind`, `C47_hdf5_mask_lost_refuted`, `C47_hdf5_scalar_refuted`, `C47_attribute_lost_refuted`, `C47_square_grid_refuted`
* `ZipProps`: `C99_arctic`, `C99_arctic_ends`, `C99_arctic_again`, `C99_directory_refuted`, `C99_usap_refuted`
* `ZipProps2`: `C99_database`

**`ClassicalDedekindReals.sig_forall_dec`** (16 theorems)

* `AstroProps`: `C56_unknown_ephemerides_refuted`
* `AtlasNcProps`: `C70_grid_shape`, `C70_elevation`, `C70_transport`, `C70_masks_refuted`, `C70_other_variable`, `C70_names_refuted`, `C70_long_names_refuted`
* `GeotiffProps2`: `C73_masks_refuted`
* `ParquetProps`: `C79_round_trip`, `C79_geometry`, `C79_columns`, `C79_no_reference_refuted`, `C79_coordinates_refuted`, `C79_index_refuted`
* `Tmd3Props`: `C75_constants`

**`ClassicalDedekindReals.sig_forall_dec`, `FunctionalExtensionality.functional_extensionality_dep`** (116 theorems)

* `AstroProps`: `C52_polynomial_is_horner`, `C52_polynomial_linear`, `C52_normalize`, `C52_mean_longitudes`, `C52_perigee_value`, `C52_perigee_in_range_refuted`, `C52_precedence`
* `AtlasNcProps`: `C70_grid`
* `DatumProps`: `C24_unknown_name`, `C24_unknown_rejected`, `C24_unknown_units`, `C24_user_defined`, `C24_half_user_defined`, `C24_named`, `C59_published_partial`, `C59_grs80_refuted`, `C59_every_name`
* `DatumProps2`: `C24_keywords`, `C24_constants`
* `DownProps`: `C97_got`, `C97_got_ends`
* `DownProps2`: `C97_hidden_refuted`, `C97_gzip_refuted`, `C97_interrupted_refuted`
* `DownProps3`: `C97_fes_again`, `C97_fes`, `C97_fes_only`, `C97_currents_refuted`, `C97_fes2022`, `C97_currents2022_refuted`
* `DownProps4`: `C97_fes_interrupted_refuted`
* `DownProps5`: `C97_fes2012_refuted`, `C97_fes2022_database`
* `DownProps6`: `C97_fes2014_database`
* `GeotiffProps`: `C73_read`, `C73_bounds`, `C73_cover`, `C73_beyond_refuted`, `C73_edges_refuted`, `C73_extent`
* `GeotiffProps2`: `C73_write_read`, `C73_again`, `C73_bands_refuted`, `C73_zero_fill_refuted`
* `GeotiffProps3`: `C73_cover_refuted`, `C73_west_refuted`
* `InferProps`: `C08_interpolation_exact_at_pivots`
* `InterpProps`: `C27_exact_partial`, `C27_node`, `C27_snapped`, `C27_exact_refuted`, `C27_between`, `C27_no_leak`, `C27_all_masked`, `C27_outside`, `C27_edge_nan_refuted`, `C28_served_partial`, `C28_last_longitude_refuted`, `C28_batch_refuted`, `C28_batch`
* `LagoonProps`: `C90_reading_off`
* `LagoonProps3`: `C90_empty`, `C90_single`
* `LaterProps`: `C89_reading_off`
* `LaterProps4`: `C89_empty`, `C89_single`
* `LeafProps`: `C96_init`, `C96_default_refuted`
* `LocalProps`: `C22_parts`, `C22_round_trip_partial`, `C22_round_trip_refuted`, `C22_reverse`
* `MaskProps2`: `C72_spline`, `C72_linear`, `C72_nearest`, `C72_bilinear`, `C72_last_column_refuted`, `C72_shapes_refuted`, `C72_formats_refuted`, `C72_depths`
* `MaskProps3`: `C72_outside`, `C72_regular_refuted`
* `MergeProps`: `C66_resample`, `C66_combine`, `C66_greenwich_refuted`, `C66_edges_refuted`, `C66_south_refuted`, `C66_north`
* `NarrowProps5`: `C86_reading`, `C86_whole`
* `NodeProps`: `C65_masks`, `C65_depths_partial`, `C65_western_edge_refuted`, `C65_empty`, `C67_centres`, `C67_limits`, `C67_global`
* `NutationProps`: `C76_line`, `C76_line_only`, `C76_tables`, `C76_short_refuted`
* `NutationProps2`: `C76_files`
* `PotentialProps`: `C77_line`, `C77_line_only`, `C77_table`
* `PotentialProps3`: `C77_lines`, `C77_largest`, `C77_one_millimetre_refuted`
* `ReadProps`: `C68_single`
* `ReduceProps`: `C93_grid`
* `ReduceProps2`: `C93_empty`, `C93_mask_refuted`
* `Tmd3Props`: `C75_grid`
* `Tmd3Props2`: `C75_missing_refuted`
* `UtilProps`: `C53_even`, `C53_ceil`

**`ClassicalDedekindReals.sig_forall_dec`, `ClassicalDedekindReals.sig_not_dec`, `FunctionalExtensionality.functional_extensionality_dep`** (119 theorems)

* `AstroProps`: `C52_doodson_range`, `C52_doodson_tau`, `C52_phase_angles`, `C52_delaunay_range`, `C52_delaunay_agree`, `C56_sun`, `C56_moon`, `C56_hour_angle`
* `ComputeProps`: `C46_long_period`
* `ComputeProps3`: `C46_tide_elevations`, `C46_tide_currents`, `C46_few_constituents_refuted`
* `ConvertProps`: `C20_delta_antisymmetric`, `C20_delta_same`, `C20_delta_additive`, `C20_delta_equator_pole`, `C20_delta_between`, `C20_delta_clipped`
* `DatumProps`: `C24_identities`, `C24_polar_curvature`, `C25_pizzetti`, `C25_equator`, `C25_dk_is_minus_flattening`, `C25_dk_refuted`
* `EarthProps`: `C50_determined`, `C50_ocean_pole_tide`, `C50_ocean_zero_at_mean_pole`, `C51_addition_theorem`
* `ElevationProps`: `C78_request`, `C78_refused`
* `ElevationProps4`: `C78_options`
* `EllipseProps`: `C26_inverse_trajectory`
* `EquilProps`: `C60_semi_diurnal`, `C60_diurnal`, `C60_long_period`, `C60_short_period_partial`, `C60_short_period_fes_partial`, `C60_l2b_fes_refuted`
* `ExtrapProps`: `C29_projected`, `C29_geographic`, `C29_no_points`, `C29_distance`
* `FreqProps`: `C15_aliasing`, `C15_aliasing_period`
* `GeodeticProps`: `C18_surface`, `C18_normal`, `C18_directions`, `C18_turns`
* `GravityProps2`: `C25_somigliana`, `C25_gradient`, `C25_height`
* `InferProps`: `C07_supplied_not_inferred_partial`, `C07_any_case_refuted`, `C08_short_period_sum_partial`, `C08_nothing_wanted`, `C08_semi_diurnal_sum_partial`, `C08_diurnal_sum_partial`, `C08_long_period_sum_partial`, `C08_single_request_refuted`, `C08_first_minor_alone_dropped`, `C09_missing_majors`, `C09_no_majors_no_minor_tide`, `C09_linear_in_majors`, `C54_short_period_never_masked`, `C54_mask_propagates_refuted`, `C54_pivot_families_mask`
* `LegendreProps`: `C55_legendre`, `C55_legendre_rejects`, `C55_assoc_legendre`, `C55_sph_harm_partial`, `C55_sph_harm_refuted`
* `LocalProps`: `C17_round_trip`, `C17_round_trip_back`, `C17_isometry`, `C17_reference_is_origin`, `C17_height`, `C17_axes`
* `LpeProps`: `C49_elementwise`, `C49_outer`, `C49_hemispheres`, `C49_node_latitude`, `C49_bound`, `C49_additive`
* `NutationProps2`: `C76_complement`, `C76_angles`, `C76_lunisolar`
* `NutationProps3`: `C76_angles_partial`, `C76_obliquity_refuted`, `C76_gast`
* `PredictProps`: `C01_map_linear`, `C01_drift_linear`, `C01_time_series_linear`, `C01_zero_constants_zero_tide`, `C02_order_irrelevant`, `C02_groups_add`, `C03_predictors_agree`, `C03_predictors_total`, `C04_sum_of_cosines`, `C04_bound_attained`, `C05_mask_iff`, `C05_mask_iff_drift`, `C05_mask_iff_time_series`, `C05_empty_constituents`
* `RotationProps`: `C16_rotate_is_rotation`, `C16_axes`, `C16_additive`, `C16_axis_names`, `C16_other_axis_rejected`, `C16_precession`, `C16_nutation`, `C16_polar_motion`, `C16_frame_bias_refuted`, `C16_frame_bias_partial`, `C16_itrs_partial`, `C16_itrs_westward`
* `ScriptProps`: `C94_long_period`
* `ScriptProps2`: `C94_elevations`, `C94_currents`
* `ScriptProps3`: `C94_csv_elevations`

**`ClassicalDedekindReals.sig_forall_dec`, `Classical_Prop.classic`, `FunctionalExtensionality.functional_extensionality_dep`** (5 theorems)

* `MergeProps`: `C66_mask`
* `ReduceAtlasProps`: `C93_atlas`, `C93_atlas_west_refuted`, `C93_atlas_greenwich_refuted`
* `ReduceAtlasProps2`: `C93_atlas_file`

**`ClassicalDedekindReals.sig_forall_dec`, `ClassicalDedekindReals.sig_not_dec`, `Classical_Prop.classic`, `FunctionalExtensionality.functional_extensionality_dep`** (298 theorems)

* `ArgProps`: `C13_node`, `C13_perigee_partial`, `C13_perigee_refuted`, `C13_minor_node`, `C13_minor_perigee_partial`, `C13_minor_perigee_refuted`, `C14_recursion_depth`, `C14_factor_positive`, `C14_compound`, `C14_as_linear`, `C14_actual_parents`, `C14_unhandled_refuted`, `C14_wrong_sign_refuted`, `C14_substring_refuted`, `C14_actual_parents_refuted`
* `AtlasNcProps2`: `C71_cell`, `C71_node`, `C71_spline`, `C71_outside`
* `AtlasNcProps3`: `C71_returns`, `C71_last_column_refuted`, `C71_read`
* `AtlasNcProps4`: `C71_repeat`, `C71_spline_keeps`, `C71_changed_refuted`, `C71_read_refuted`, `C71_missing`, `C71_read_returns`
* `BowringProps`: `C18_bowring_fixed_point`, `C18_bowring_exact_when_fixed`, `C18_bowring_batch`, `C18_bowring_surface`, `C18_dispatch`
* `CaseProps`: `C68_half_cell_refuted`, `C68_mask_refuted`
* `CoastProps`: `C85_errors`, `C85_off`, `C85_off_regular`, `C85_off_returns`
* `CoastProps2`: `C85_filled`
* `CoastProps3`: `C85_returns`, `C85_velocity_refuted`
* `CodecProps`: `C40_codec`, `C40_masked_fill`, `C40_got`, `C40_fes_heights_partial`, `C40_currents_refuted`, `C40_long_name_refuted`, `C40_no_tide_refuted`, `C40_other_versions_refuted`
* `ComputeProps`: `C46_load_pole`, `C46_ocean_pole`, `C46_solid_earth_partial`, `C46_solid_earth_grid_partial`, `C46_case_refuted`
* `ComputeProps2`: `C46_solid_earth_refuted`
* `ComputeProps4`: `C64_load_pole`, `C64_ocean_pole`, `C64_solid_earth`, `C46_type_left_out`, `C46_square_axes_refuted`
* `ConvertProps`: `C20_identity`, `C20_identity_near_pole_refuted`, `C20_low_latitude`, `C20_high_latitude`, `C20_lengths`, `C20_array`, `C20_caller_kept_partial`, `C20_caller_modified_refuted`, `C20_equator_pole`
* `ConvertProps2`: `C20_mirror`, `C20_exact`
* `CropProps`: `C83_spline`, `C83_linear`, `C83_cell`, `C83_node`, `C83_nearest`
* `CropProps2`: `C83_default_spline`, `C83_outside`, `C83_zero`, `C83_zero_regular`
* `CropProps3`: `C83_returns`, `C83_empty`, `C83_first_column_refuted`
* `CropProps4`: `C83_same_spline`, `C83_same_linear`
* `CropProps5`: `C83_seam_refuted`, `C83_edge_refuted`
* `DatumProps`: `C24_volume`, `C24_area`, `C24_density`, `C24_units`
* `EarthProps`: `C50_load_pole_tide`, `C50_shapes`, `C50_zero_at_mean_pole`, `C50_linear`, `C50_isometry`, `C51_solid_earth_tide`, `C51_systems`, `C51_errors`
* `ElevationProps2`: `C78_node`, `C78_constants`, `C78_heights`, `C78_returns`, `C78_last_column_refuted`, `C78_outside`, `C78_points_refuted`
* `ElevationProps3`: `C78_series_node`, `C78_series_heights`, `C78_atlas_node`, `C78_atlas_heights`
* `EllipseProps`: `C26_trajectory`, `C26_ranges`, `C26_round_trip`, `C26_round_trip_parameters`
* `ExtractProps`: `C68_cell_partial`, `C68_node`
* `FjordProps`: `C91_errors`, `C91_off`, `C91_off_regular`
* `FjordProps2`: `C91_filled`
* `FjordProps3`: `C91_read_heights`, `C91_read_inside`
* `FjordProps4`: `C91_returns`, `C91_zero_refuted`
* `FjordProps5`: `C91_nan`, `C91_edge_refuted`
* `FreqProps`: `C15_difference_quotient`, `C15_derivative`, `C15_constant_rate`, `C15_rate_within_a_century`
* `GeodeticProps`: `C18_sphere`, `C18_sphere_inverts`, `C18_moritz_fixed_point`, `C18_moritz_exact_when_fixed`
* `GravityProps`: `C24_normal_field`
* `LagoonProps`: `C90_interpolation_off`
* `LagoonProps2`: `C90_read`, `C90_model`, `C90_cropped`
* `LagoonProps3`: `C90_errors`, `C90_left`, `C90_filled`, `C90_filled_cropped`, `C90_default_refuted`
* `LaterProps`: `C89_interpolation_off`, `C89_read`
* `LaterProps2`: `C89_cropped`
* `LaterProps3`: `C89_errors`, `C89_filled`, `C89_spline`
* `LaterProps4`: `C89_default_refuted`
* `LeafProps`: `C96_wrap`, `C96_marker`, `C96_typed`, `C96_center_refuted`, `C96_cursor`
* `LocalProps`: `C17_horizontal`, `C17_zenith`, `C21_range`, `C21_same_meridian`, `C21_identity`, `C21_idempotent`, `C21_periodic`
* `LpeProps`: `C49_same_arguments`, `C49_mf_plus_refuted`, `C49_appended_node`, `C49_appended_node_otis_refuted`
* `MaskProps3`: `C72_agrees`
* `MaskProps4`: `C72_spline_refuted`, `C72_seam_refuted`, `C72_west_refuted`
* `MoritzProps`: `C18_moritz_error`, `C18_moritz_converges`, `C18_moritz_batch`, `C18_moritz_surface`
* `NarrowProps`: `C86_off`
* `NarrowProps2`: `C86_model`
* `NarrowProps3`: `C86_zonal_refuted`, `C86_meridional_refuted`
* `NarrowProps4`: `C86_cell`
* `NarrowProps5`: `C86_returns`, `C86_default_refuted`, `C86_empty`
* `NutationProps2`: `C76_planets_refuted`
* `NutationProps3`: `C76_gast_refuted`
* `OtisFilesProps`: `C81_read`, `C81_node`, `C81_heights`, `C81_returns`, `C81_outside`
* `PhaseProps`: `C12_arguments`, `C12_phase`, `C12_tide`, `C12_unreduced`, `C58_phase_partial`
* `PotentialProps2`: `C77_long_period`
* `PotentialProps3`: `C77_amplitudes`, `C77_m1_refuted`
* `PredictProps`: `C04_bounded_by_amplitudes`, `C06_solve_inverts_prediction`, `C06_solve_rejects`
* `ReadProps`: `C68_outside`, `C68_seam_refuted`, `C68_points_refuted`, `C68_read_heights`, `C68_read_inside`, `C68_unchanged`
* `ReefProps`: `C87_off`, `C87_off_regular`, `C87_errors`, `C87_kept`
* `ReefProps2`: `C87_filled`, `C87_returns`, `C87_velocity_refuted`
* `ReefProps3`: `C88_model`
* `ReefProps4`: `C88_cell`, `C88_spline`, `C88_nearest`
* `ReefProps5`: `C88_filled`, `C88_returns`, `C88_empty`
* `ReefProps6`: `C88_fill_refuted`
* `RegularProps`: `C82_linear`, `C82_nearest`, `C82_outside`
* `RegularProps2`: `C82_returns`, `C82_unknown`, `C82_read`
* `RegularProps3`: `C82_atlas_linear`, `C82_atlas_nearest`, `C82_atlas_outside`, `C82_atlas_returns`, `C82_atlas_unknown`, `C82_atlas_read`
* `RegularProps4`: `C82_otis_linear`, `C82_otis_nearest`
* `RegularProps5`: `C82_otis_outside`, `C82_otis_returns`, `C82_otis_unknown`, `C82_otis_read_heights`, `C82_otis_read_inside`
* `RegularProps6`: `C82_otis_again_linear`, `C82_otis_again_nearest`, `C82_otis_zero_refuted`, `C82_otis_mask_refuted`
* `ReturnProps`: `C68_returns`, `C68_last_column_refuted`, `C68_again_spline_partial`
* `ScaleProps`: `C23_conformal`, `C23_reference`, `C23_positive`, `C23_even`, `C23_area`, `C23_metric`
* `ScriptProps`: `C94_load_pole`, `C94_ocean_pole`, `C94_solid_earth`
* `ScriptProps2`: `C94_lengths`, `C94_types_refuted`, `C94_solid_earth_grid_refuted`
* `ScriptProps3`: `C94_csv_lines`, `C94_csv_refuted`, `C94_formats`, `C94_columns_refuted`, `C94_unit_refuted`
* `SeriesProps`: `C69_cell`, `C69_node`, `C69_spline`
* `SeriesProps2`: `C69_outside`, `C69_rows_refuted`, `C69_got_outside_refuted`, `C69_returns`, `C69_last_column_refuted`, `C69_alternate_refuted`
* `SeriesProps3`: `C69_read`, `C69_read_refuted`
* `ShoreProps`: `C84_off`, `C84_off_whole`, `C84_off_regular`, `C84_errors`, `C84_filled`
* `ShoreProps2`: `C84_cropped`
* `ShoreProps3`: `C84_crop_refuted`
* `SplineProps`: `C68_spline_partial`
* `TableProps`: `C57_species`, `C57_omega`, `C57_phase`, `C57_prediction`, `C57_untabulated_refuted`
* `Tmd3Props2`: `C75_extract`, `C75_returns`, `C75_short`
* `ZhuProps`: `C19_closed_form_exact_partial`, `C19_polar_partial`, `C19_batch_refuted`, `C18_unique`, `C18_closed_form_inverts`

<!-- end assumptions -->
