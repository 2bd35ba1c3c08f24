{"id": "C01", "title": "Tide prediction is linear in the harmonic constants", "statement": "For the map, drift and time-series predictors: predicting with the harmonic constants a*h1 + b*h2 (same times, constituents, corrections) gives a times the prediction with h1 plus b times the prediction with h2, at every output point; predicting with all-zero constants gives zero.", "quantifier": "all real scalars a,b, all constituent lists, all correction schemes, all times and deltat, all pairs of complex harmonic-constant vectors of matching shape", "why_tests_cant": "ranges over a continuum of amplitudes/phases and over lists of constituents of any length", "anchors": ["pyTMD/predict.py:map", "pyTMD/predict.py:drift", "pyTMD/predict.py:time_series"]}
{"id": "C02", "title": "Tide prediction does not depend on constituent order and adds over groups", "statement": "Reordering the constituents (with their constants) in any way leaves the predicted tide and its mask unchanged, and predicting with a concatenation of two constituent groups equals the sum of the two predictions (mask: the union).", "quantifier": "all permutations of all constituent lists and all splits into two groups, all times, correction schemes and constants", "why_tests_cant": "the number of permutations and lists is unbounded", "anchors": ["pyTMD/predict.py:map", "pyTMD/predict.py:drift", "pyTMD/predict.py:time_series"]}
{"id": "C03", "title": "The three predictors agree point by point", "statement": "The i-th value (and mask bit) of a drift prediction equals the value obtained by predicting a one-element map at time i with the i-th row of constants, and equals the i-th value of a time series at that location; adding, removing or reordering other points or times never changes the value at a point.", "quantifier": "all batches of points and times of any length, all correction schemes and constants", "why_tests_cant": "batch independence quantifies over every possible companion point", "anchors": ["pyTMD/predict.py:map", "pyTMD/predict.py:drift", "pyTMD/predict.py:time_series", "pyTMD/arguments.py:arguments"]}
{"id": "C04", "title": "Predicted tide is a sum of cosines bounded by the nodal-corrected amplitudes", "statement": "If a constituent's constant is amp*exp(-i*phase), its contribution to the tide is f*amp*cos(theta - phase), where theta is the equilibrium argument plus nodal angle; the absolute value of the total prediction never exceeds the sum over constituents of |f|*amp, and the bound is attained for a single constituent at some argument.", "quantifier": "all amplitudes, phases, times, constituent lists and correction schemes", "why_tests_cant": "an inequality over a continuum of inputs", "anchors": ["pyTMD/predict.py:time_series", "pyTMD/io/constituents.py:constituents.phase", "pyTMD/io/constituents.py:constituents.amplitude"]}
{"id": "C05", "title": "A predicted value is masked exactly when one of its constants is masked", "statement": "A value returned by map/drift/time-series prediction is masked if and only if at least one constituent of the corresponding row of harmonic constants is masked; an empty constituent list gives unmasked zeros.", "quantifier": "all mask patterns over any number of points and constituents", "why_tests_cant": "2^(n*m) mask patterns for every n, m", "anchors": ["pyTMD/predict.py:map", "pyTMD/predict.py:drift", "pyTMD/predict.py:time_series"]}
{"id": "C06", "title": "Solving for constants inverts prediction", "statement": "If a height series was produced by predicting with constants h (plus any constant offset), then any least-squares solution returned for the design matrix reproduces the series exactly, and, when the design matrix has full column rank, the returned amplitude and phase of every constituent are exactly those of h; returned amplitudes are non-negative and phases lie in [0,360). Too few samples or mismatching lengths raise ValueError.", "quantifier": "all sample times, constituent lists, constants, offsets; any exact least-squares minimiser", "why_tests_cant": "existence/uniqueness statement over all designs", "anchors": ["pyTMD/solve/constants.py:constants", "pyTMD/predict.py:time_series"]}
{"id": "C07", "title": "Minor tides are never inferred for constituents that were supplied", "statement": "For every inference family, a constituent that is supplied in the list of known constituents contributes nothing to the inferred minor tide, i.e. major prediction plus inferred minor tide counts each constituent at most once.", "quantifier": "all lists of supplied constituent names (any case) and all user-selected minor lists", "why_tests_cant": "lists of names are unbounded and the failure only shows for particular spellings", "anchors": ["pyTMD/predict.py:_infer_short_period", "pyTMD/predict.py:_infer_semi_diurnal", "pyTMD/predict.py:_infer_diurnal", "pyTMD/predict.py:_infer_long_period"]}
{"id": "C08", "title": "Every requested minor constituent is inferred", "statement": "If enough major constituents are supplied, the inferred minor tide is the sum of the contributions of exactly the requested minor constituents that are not supplied, whichever and however many are requested (in particular when a single one is requested).", "quantifier": "all requested subsets and all supplied lists with enough majors", "why_tests_cant": "2^20 subsets; the defect is visible only for one particular subset shape", "anchors": ["pyTMD/predict.py:_infer_short_period", "pyTMD/predict.py:_infer_semi_diurnal", "pyTMD/predict.py:_infer_diurnal", "pyTMD/predict.py:_infer_long_period"]}
{"id": "C09", "title": "Minor inference degrades to zero or an error when majors are missing", "statement": "With fewer majors than required (6 of 9 for short-period, all three for the others) inference returns zero, or raises when asked to; it is linear in the major constants otherwise.", "quantifier": "all lists of supplied constituents with duplicates excluded, both error modes", "why_tests_cant": "ranges over all subsets and orders of supplied names", "anchors": ["pyTMD/predict.py:infer_minor"]}
{"id": "C10", "title": "Doodson numbers identify constituents", "statement": "Converting Doodson coefficients to a Doodson number and back returns the same six coefficients, for every coefficient vector whose digits are representable, and two different representable vectors never share a number; vectors that are not representable are rejected, not mangled.", "quantifier": "all integer 6-vectors of coefficients", "why_tests_cant": "an infinite domain of vectors, with failures only at digit boundaries", "anchors": ["pyTMD/arguments.py:_to_doodson_number", "pyTMD/arguments.py:_from_doodson_number"]}
{"id": "C11", "title": "Extended Doodson strings identify constituents", "statement": "Converting Doodson coefficients (7 components) to an extended Doodson string and back returns the same coefficients for every vector with components in -8..16 and vectors outside are rejected, never mapped to the string of another vector.", "quantifier": "all integer 7-vectors of coefficients", "why_tests_cant": "an infinite domain of vectors", "anchors": ["pyTMD/arguments.py:_to_extended_doodson", "pyTMD/arguments.py:_from_extended_doodson"]}
{"id": "C12", "title": "Equilibrium arguments only depend on the astronomical longitudes modulo 360 degrees", "statement": "Replacing any mean longitude by one differing by a multiple of 360 degrees changes the phase of every tabulated constituent by a multiple of 360 degrees, so (with nodal corrections of the OTIS or perth schemes) the predicted tide is unchanged.", "quantifier": "all 483 tabulated constituents, all real longitudes and all integer numbers of turns", "why_tests_cant": "all reals and all numbers of turns", "anchors": ["pyTMD/arguments.py:arguments", "pyTMD/arguments.py:coefficients_table", "pyTMD/data/doodson.json", "pyTMD/astro.py:mean_longitudes"]}
{"id": "C13", "title": "Nodal corrections are periodic in the node and perigee longitudes", "statement": "For every constituent and every correction scheme the nodal factor f and nodal angle u are unchanged (u up to full turns) when the longitude of the node or of the perigee is changed by 360 degrees.", "quantifier": "all real longitudes, all constituents, all correction schemes", "why_tests_cant": "all reals; fails only for some constituents of one scheme", "anchors": ["pyTMD/arguments.py:nodal", "pyTMD/arguments.py:minor_arguments"]}
{"id": "C14", "title": "Compound tide nodal corrections are products of their parents", "statement": "For every compound (shallow-water) constituent built from parents, the nodal factor is the product of the parents' factors (with multiplicity) and the nodal angle is the signed sum of the parents' angles, and the factor is positive whenever the parents' factors are.", "quantifier": "all compound constituents, all node/perigee longitudes, all correction schemes", "why_tests_cant": "all reals and more than a hundred name branches", "anchors": ["pyTMD/arguments.py:nodal"]}
{"id": "C15", "title": "Constituent frequencies are the time derivative of the equilibrium argument", "statement": "The angular frequency reported for a constituent equals the rate of change of its equilibrium argument computed from the same longitudes model, and the aliased period of a signal sampled every Ts corresponds to a frequency of at most half the sampling frequency that is indistinguishable from the true one at the sample times.", "quantifier": "all constituents, all sampling intervals, all sample indices", "why_tests_cant": "continuum of frequencies and all sample indices", "anchors": ["pyTMD/arguments.py:frequency", "pyTMD/arguments.py:aliasing_period", "pyTMD/math.py:aliasing"]}
{"id": "C16", "title": "Rotation matrices are rotations", "statement": "rotate(theta, axis) is orthogonal with determinant 1, composes additively in theta about one axis, its transpose is rotate(-theta), it fixes its axis, accepts upper and lower case axis names and rejects any other axis; the precession, nutation, frame-bias product and polar-motion matrices built from it preserve lengths, and the combined celestial to terrestrial rotation moves a fixed direction westward through the increase of sidereal time.", "quantifier": "all angles and all axis strings", "why_tests_cant": "continuum of angles, all strings", "anchors": ["pyTMD/math.py:rotate", "pyTMD/astro.py:_nutation_matrix", "pyTMD/astro.py:_precession_matrix", "pyTMD/astro.py:_polar_motion_matrix", "pyTMD/astro.py:itrs"]}
{"id": "C17", "title": "Local ENU conversion is an isometry and is inverted by its inverse", "statement": "Converting Cartesian coordinates to local east-north-up coordinates and back with the same reference point returns the original coordinates, in both orders, and distances are preserved.", "quantifier": "all reference points and all Cartesian points", "why_tests_cant": "continuum", "anchors": ["pyTMD/spatial.py:to_ENU", "pyTMD/spatial.py:from_ENU"]}
{"id": "C18", "title": "Geodetic to Cartesian conversion is correct and invertible", "statement": "to_cartesian places a point at ellipsoidal height h along the outward ellipsoid normal (zero height lies exactly on the ellipsoid), longitude shifts by 360 degrees do not matter, to_sphere inverts the spherical case, and the true geodetic coordinates are a fixed point of both iterative inverse methods, which return the exact height when the latitude has converged.", "quantifier": "all latitudes in (-90,90), longitudes, heights, ellipsoids with 0<=f<1", "why_tests_cant": "continuum", "anchors": ["pyTMD/spatial.py:to_cartesian", "pyTMD/spatial.py:to_sphere", "pyTMD/spatial.py:_moritz_iterative", "pyTMD/spatial.py:_bowring_iterative"]}
{"id": "C19", "title": "Closed-form geodetic conversion treats every point independently", "statement": "The geodetic coordinates computed by the closed-form method for a point do not depend on which other points are in the same array.", "quantifier": "all arrays of points", "why_tests_cant": "batch independence quantifies over all companion points", "anchors": ["pyTMD/spatial.py:_zhu_closed_form", "pyTMD/spatial.py:to_geodetic"]}
{"id": "C20", "title": "Ellipsoid conversions are consistent", "statement": "Converting from an ellipsoid to itself is the identity, the elevation offset between two ellipsoids is antisymmetric and vanishes for equal ellipsoids, at the equator it is the difference of the semi-major axes and at the poles of the semi-minor axes; caller arrays are not modified.", "quantifier": "all latitudes, heights and ellipsoid parameters", "why_tests_cant": "continuum and aliasing of caller arrays", "anchors": ["pyTMD/spatial.py:convert_ellipsoid", "pyTMD/spatial.py:compute_delta_h"]}
{"id": "C21", "title": "Longitude wrapping keeps the meridian", "statement": "wrap_longitudes returns an angle in [-180,180] that differs from the input by a multiple of 360 degrees, is idempotent, and is the identity on (-180,180).", "quantifier": "all real longitudes", "why_tests_cant": "continuum", "anchors": ["pyTMD/spatial.py:wrap_longitudes"]}
{"id": "C22", "title": "Degrees-minutes-seconds conversion round trips", "statement": "from_dms(to_dms(d)) = d for every decimal degree, with minutes in [0,60) and seconds in [0,60).", "quantifier": "all real degrees", "why_tests_cant": "continuum; failure is confined to an interval around zero", "anchors": ["pyTMD/spatial.py:to_dms", "pyTMD/spatial.py:from_dms"]}
{"id": "C23", "title": "Polar stereographic area scale factors are consistent", "statement": "The area scale is 1 at the reference latitude, positive, even in the sign of the latitude (with the reference latitude sign following), and the special value used at the pole is the limit of the general formula.", "quantifier": "all latitudes, all reference latitudes in (0,90), all flattenings in [0,1)", "why_tests_cant": "continuum and a limit", "anchors": ["pyTMD/spatial.py:scale_factors"]}
{"id": "C24", "title": "Datum parameters satisfy the ellipsoid identities", "statement": "For every datum object the derived parameters satisfy b=(1-f)a, a^2-b^2=E^2, e^2=E^2/a^2, e'^2=E^2/b^2=e^2/(1-e^2), 1-e^2=(1-f)^2, volume=(4/3)pi a^2 b = (4/3) pi R^3, and dimensionless parameters are the same in MKS and CGS units; unknown ellipsoid or unit names are rejected.", "quantifier": "all semi-major axes and flattenings and all named ellipsoids, both unit systems", "why_tests_cant": "continuum of user-defined ellipsoids", "anchors": ["pyTMD/crs.py:datum"]}
{"id": "C25", "title": "Normal gravity formula constant k is b*gamma_b/(a*gamma_a)-1", "statement": "The Somigliana constant dk returned by a datum equals (b*gamma_b)/(a*gamma_a) - 1.", "quantifier": "all datums", "why_tests_cant": "continuum of ellipsoids", "anchors": ["pyTMD/crs.py:datum.dk"]}
{"id": "C26", "title": "Tidal ellipse conversion round trips", "statement": "Converting the complex currents u,v to ellipse parameters and back returns u,v; the parameters satisfy major>=|minor|, inclination in [0,180), phase in [0,360); the parametric ellipse traced by the parameters coincides with the trajectory traced by the currents.", "quantifier": "all complex u,v", "why_tests_cant": "continuum with branch cuts", "anchors": ["pyTMD/ellipse.py:ellipse", "pyTMD/ellipse.py:inverse"]}
{"id": "C27", "title": "Bilinear interpolation reproduces and is bounded by the grid", "statement": "At a point inside a grid cell with four valid corners the interpolated value is the bilinear interpolant (exact for any function a+bx+cy+dxy, equal to the node value at nodes, between the minimum and maximum of the corners); masked corners are ignored and never leak into the result; points outside are returned masked with the fill value.", "quantifier": "all strictly increasing axes, all fields, all mask patterns, all query points", "why_tests_cant": "continuum of query points and all mask patterns", "anchors": ["pyTMD/interpolate.py:bilinear"]}
{"id": "C28", "title": "Every point accepted as inside the grid by bilinear interpolation has an answer", "statement": "Every query point for which the bilinear interpolator does not report 'outside' yields a value or a masked entry, never an exception; in particular the closed longitude range [min,max] it accepts is fully served.", "quantifier": "all grids and query points", "why_tests_cant": "failure only on a measure-zero edge", "anchors": ["pyTMD/interpolate.py:bilinear"]}
{"id": "C29", "title": "Nearest-neighbour extrapolation honours its cutoff and finds the nearest valid node", "statement": "A query point receives the value of a valid model node at minimal distance if that distance is at most the cutoff and otherwise the fill value; the bounding-box pre-filter never removes a node within the cutoff.", "quantifier": "all node sets, query points and cutoffs", "why_tests_cant": "all configurations", "anchors": ["pyTMD/interpolate.py:extrapolate"]}
{"id": "C30", "title": "Global grid extension is periodic", "statement": "Extending a global longitude axis and its field adds columns on each side such that in the extended grid any two columns whose longitudes differ by 360 degrees hold the same data, the inner part is unchanged and the axis is evenly spaced.", "quantifier": "all grids of any size and step", "why_tests_cant": "all grid sizes", "anchors": ["pyTMD/io/OTIS.py:_extend_array", "pyTMD/io/OTIS.py:_extend_matrix", "pyTMD/io/GOT.py:_extend_array", "pyTMD/io/GOT.py:_extend_matrix", "pyTMD/io/IERS.py:_extend_array"]}
{"id": "C31", "title": "Shifting a global grid keeps data attached to its meridian", "statement": "After a shift to another base longitude every column still holds the data of the same meridian (longitudes equal modulo the cycle), no meridian is lost, the axis is still increasing, and a shift never fails on a global grid.", "quantifier": "all global grids, base longitudes, both directions, with or without a duplicated end column", "why_tests_cant": "all grid sizes and base longitudes", "anchors": ["pyTMD/io/OTIS.py:_shift", "pyTMD/io/ATLAS.py:_shift", "pyTMD/io/FES.py:_shift", "pyTMD/io/GOT.py:_shift", "pyTMD/io/IERS.py:_shift"]}
{"id": "C32", "title": "Cropping keeps exactly the nodes in the buffered bounds", "statement": "Cropping returns exactly the nodes of the (sorted) grid that lie in the buffered bounds, in order, with data still attached to its coordinates; interpolating at a point inside the bounds gives the same result before and after cropping.", "quantifier": "all sorted grids, bounds and buffers", "why_tests_cant": "all grid sizes and bounds", "anchors": ["pyTMD/io/OTIS.py:_crop", "pyTMD/io/FES.py:_crop"]}
{"id": "C33", "title": "The longitude convention applied to query points is per point", "statement": "Whether a query point is considered inside a global model, and which model longitude it is mapped to, depends only on that point and on the model, not on the other points of the batch, and every longitude in [-180,360] is inside a global model.", "quantifier": "all batches of query longitudes and all global grids (OTIS and ATLAS/FES/GOT families; extract and read+interpolate paths)", "why_tests_cant": "batch independence quantifies over all companion points", "anchors": ["pyTMD/io/OTIS.py:extract_constants", "pyTMD/io/OTIS.py:interpolate_constants", "pyTMD/io/FES.py:interpolate_constants", "pyTMD/io/FES.py:extract_constants", "pyTMD/io/GOT.py:interpolate_constants", "pyTMD/io/ATLAS.py:interpolate_constants"]}
{"id": "C34", "title": "Ocean pole tide coefficients cover all longitudes", "statement": "Each tabulated record of the ocean pole tide map lands in its own grid cell at its own coordinates, and after shifting and extension the longitude axis covers the closed range [-180,180].", "quantifier": "all records of the half-degree map; all longitudes in [-180,180]", "why_tests_cant": "all longitudes; failure only in the last quarter degree", "anchors": ["pyTMD/io/IERS.py:read_binary_file", "pyTMD/io/IERS.py:extract_coefficients"]}
{"id": "C35", "title": "OTIS grid files round trip", "statement": "Writing a model grid (limits, bathymetry, mask, open boundary nodes, time step) in OTIS binary format and reading it back returns the same grid.", "quantifier": "all grid sizes, all numbers of open boundary nodes, all contents", "why_tests_cant": "all sizes and contents", "anchors": ["pyTMD/io/OTIS.py:output_otis_grid", "pyTMD/io/OTIS.py:read_otis_grid"]}
{"id": "C36", "title": "OTIS elevation and transport files round trip", "statement": "Writing complex constituents in OTIS binary format and reading constituent ic back returns exactly the ic-th field (real, imaginary, zonal and meridional parts in their places) for every ic and any number of constituents; the limits are preserved.", "quantifier": "all sizes, numbers of constituents and indices", "why_tests_cant": "all sizes and indices", "anchors": ["pyTMD/io/OTIS.py:output_otis_elevation", "pyTMD/io/OTIS.py:read_otis_elevation", "pyTMD/io/OTIS.py:output_otis_transport", "pyTMD/io/OTIS.py:read_otis_transport"]}
{"id": "C37", "title": "Constituent names in OTIS files round trip", "statement": "The list of constituent names read from the header of an OTIS file equals the list that was written, in order.", "quantifier": "all lists of constituent names", "why_tests_cant": "all name lists; failure only for adjacent long names", "anchors": ["pyTMD/io/OTIS.py:read_constituents", "pyTMD/io/OTIS.py:output_otis_elevation"]}
{"id": "C38", "title": "Compact ATLAS files are read record by record without losing synchronisation", "statement": "For a compact ATLAS file made of a global solution followed by any sequence of localized solutions, reading constituent ic returns the global field ic and, for each local solution that contains that constituent, its own local field, whatever mixture of solutions with and without that constituent precedes it.", "quantifier": "all sequences of local solutions with arbitrary sizes and constituent sets, all ic", "why_tests_cant": "all record sequences", "anchors": ["pyTMD/io/OTIS.py:read_atlas_elevation", "pyTMD/io/OTIS.py:read_atlas_transport", "pyTMD/io/OTIS.py:read_atlas_grid"]}
{"id": "C39", "title": "GOT and FES ascii grids are read back exactly", "statement": "A field written with 11 (GOT) or 30 (FES) values per line is read back exactly, for every grid size; amplitude and phase blocks are never mixed.", "quantifier": "all numbers of rows and columns, all field values", "why_tests_cant": "all sizes; failures only for column counts that are small or divisible by the line width", "anchors": ["pyTMD/io/GOT.py:read_ascii_file", "pyTMD/io/FES.py:read_ascii_file"]}
{"id": "C40", "title": "Masked cells never become tides when writing and reading model files", "statement": "Amplitude and phase computed from a complex constituent and recombined as amp*exp(-i*phase) give the same complex constituent, a cell is masked after reading if it was masked when written, and every documented variable type can be written.", "quantifier": "all complex values, all masks, all variable types", "why_tests_cant": "continuum and all types", "anchors": ["pyTMD/io/FES.py:output_netcdf_file", "pyTMD/io/FES.py:read_netcdf_file", "pyTMD/io/GOT.py:output_netcdf_file", "pyTMD/io/constituents.py:constituents.phase"]}
{"id": "C41", "title": "The constituents container keeps its list and its data in step", "statement": "After any sequence of append, pop, update, get and item operations every listed constituent has data, get returns the last value stored under the name, pop removes exactly the named constituent and keeps the others in order, and iteration visits every listed constituent once in order.", "quantifier": "all finite sequences of operations", "why_tests_cant": "all histories", "anchors": ["pyTMD/io/constituents.py:constituents"]}
{"id": "C42", "title": "Constituent name parsing is idempotent and total on known names", "statement": "Parsing the canonical name of any known constituent returns that name whatever its letter case, parsing is idempotent, and an unknown name raises ValueError.", "quantifier": "all strings containing known names in any case", "why_tests_cant": "all strings", "anchors": ["pyTMD/io/constituents.py:constituents.parse"]}
{"id": "C43", "title": "Model object results do not depend on previous use of the object", "statement": "Selecting an elevation or current model on a model object, then another one, gives the same attributes and the same extracted constants as a fresh object on which only the second selection was made; calling the constants extraction twice gives the same answer twice.", "quantifier": "all sequences of method calls on a model object", "why_tests_cant": "all histories", "anchors": ["pyTMD/io/model.py:model.elevation", "pyTMD/io/model.py:model.current", "pyTMD/io/model.py:model.extract_constants", "pyTMD/io/model.py:model.interpolate_constants"]}
{"id": "C44", "title": "Extra model databases extend, never remove, built-in models", "statement": "Loading the model database with user-supplied extra databases keeps every built-in model and adds the user's models (the user's definition winning on name clash).", "quantifier": "all extra databases", "why_tests_cant": "all user databases", "anchors": ["pyTMD/io/model.py:load_database"]}
{"id": "C45", "title": "Model definitions round trip through dictionaries", "statement": "Exporting a model to a dictionary and importing it back preserves every exported attribute, and format validation is idempotent and accepts exactly the documented formats.", "quantifier": "all models and all attribute values", "why_tests_cant": "all attribute values", "anchors": ["pyTMD/io/model.py:model.to_dict", "pyTMD/io/model.py:model.from_dict", "pyTMD/io/model.py:model.serialize", "pyTMD/io/model.py:model.validate_format"]}
{"id": "C46", "title": "Computed corrections do not depend on how the request is packaged", "statement": "For each correction routine the value at a location and time is the same whether requested as drift, grid or time series, and whatever the letter case of the type keyword that validation accepts.", "quantifier": "all locations, times and packaging types", "why_tests_cant": "all batches and all spellings", "anchors": ["pyTMD/compute.py:SET_displacements", "pyTMD/compute.py:LPET_elevations", "pyTMD/compute.py:LPT_displacements", "pyTMD/compute.py:tide_elevations"]}
{"id": "C47", "title": "Writing outputs does not modify the caller's data and loses nothing", "statement": "Writing a dataset to netCDF4/HDF5 leaves the caller's attribute dictionaries unchanged, so writing the same dataset twice produces the same files, and every variable (including scalars) can be read back.", "quantifier": "all datasets and all sequences of writes", "why_tests_cant": "all histories of writes", "anchors": ["pyTMD/spatial.py:to_netCDF4", "pyTMD/spatial.py:_drift_netCDF4", "pyTMD/spatial.py:_grid_netCDF4", "pyTMD/spatial.py:to_HDF5"]}
{"id": "C48", "title": "Data type detection separates drift, grid and time series", "statement": "Data type detection from the shapes of x, y and t classifies single-point requests as time series, unequal coordinate lengths as grids and equal lengths matching the time length as drift, and never classifies two conflicting requests the same way.", "quantifier": "all sizes of x, y and t", "why_tests_cant": "all sizes", "anchors": ["pyTMD/spatial.py:data_type"]}
{"id": "C49", "title": "Long-period equilibrium tides are symmetric, zonal and linear in the potential", "statement": "For every time, latitude, choice of lines (any case, one name or a list, all by default) and correction scheme the long-period equilibrium tide is 0.693 times the normalised degree-2 Legendre function of latitude times the sum of the chosen Cartwright-Tayler-Edden lines; it is the same in both hemispheres, vanishes where sin^2(lat)=1/3, is bounded by the sum of the chosen amplitudes and is additive over disjoint choices. Arguments of lines agree with those of the predictors, and the appended node tide predicts the node line.", "quantifier": "all times and latitudes", "why_tests_cant": "continuum", "anchors": ["pyTMD/predict.py:equilibrium_tide", "pyTMD/io/model.py:node_equilibrium"]}
{"id": "C50", "title": "Pole tide displacements are geometrically consistent", "statement": "Each row of the load pole tide is the displacement (radial h2*V, tangential l2*grad V) produced by the change V of the centrifugal potential for the offset of the pole from the secular pole; it is linear in the offset, zero at the secular pole, and the change from local to Cartesian components is an isometry. Each row of the ocean pole tide is K*Re(m conj(gamma2) conj(u)). Arrays are broadcast or rejected exactly by numpy's rule.", "quantifier": "all pole coordinates, times and positions", "why_tests_cant": "continuum", "anchors": ["pyTMD/predict.py:load_pole_tide", "pyTMD/predict.py:ocean_pole_tide"]}
{"id": "C51", "title": "Solid earth tides are the elastic response to the tide generating potential", "statement": "Off the axis of rotation, each row of the solid earth tide is the displacement with radial component and tangential gradient given by the degree 2 and 3 potentials of sun and moon with latitude dependent Love numbers, the out-of-phase diurnal and semidiurnal parts, the IERS frequency tables and the l(1) horizontal part; the mean-tide system adds the permanent tide only, radial and meridional, independent of time and of the bodies. Unknown systems and shapes that do not broadcast are rejected.", "quantifier": "all positions and times", "why_tests_cant": "continuum", "anchors": ["pyTMD/predict.py:solid_earth_tide", "pyTMD/predict.py:_out_of_phase_diurnal", "pyTMD/predict.py:_out_of_phase_semidiurnal", "pyTMD/predict.py:_latitude_dependence", "pyTMD/predict.py:_frequency_dependence_diurnal", "pyTMD/predict.py:_frequency_dependence_long_period", "pyTMD/predict.py:_free_to_mean"]}
{"id": "C52", "title": "Astronomical mean longitudes are normalised", "statement": "Mean longitudes of moon, sun, perigee and node lie in [0,360), polynomial normalisation changes them only by full turns, and the two evaluation orders of the polynomial agree.", "quantifier": "all times and all three longitude models", "why_tests_cant": "continuum", "anchors": ["pyTMD/astro.py:mean_longitudes", "pyTMD/math.py:polynomial_sum", "pyTMD/math.py:normalize_angle"]}
{"id": "C53", "title": "Small utilities", "statement": "even(v) is the largest even integer not above v, ceil(v) is the least integer not below v, roman_to_int inverts the canonical roman numeral encoding of every positive integer below 4000, and url_split of a joined path returns its parts.", "quantifier": "all reals, all integers 1..3999, all lists of path parts", "why_tests_cant": "infinite domains", "anchors": ["pyTMD/utilities.py:even", "pyTMD/utilities.py:ceil", "pyTMD/utilities.py:roman_to_int", "pyTMD/utilities.py:url_split"]}
{"id": "C54", "title": "Masked major constants give masked inferred minor tides", "statement": "Where all major constants of a point are masked (no data), the inferred minor tide of that point is masked, and where none is masked it is not masked.", "quantifier": "all mask patterns, all numbers of points, all inference families", "why_tests_cant": "ranges over all mask patterns and families; the unmasked value looks like an ordinary number", "anchors": ["pyTMD/predict.py:_infer_short_period", "pyTMD/predict.py:_infer_semi_diurnal", "pyTMD/predict.py:_infer_diurnal", "pyTMD/predict.py:_infer_long_period"]}
{"id": "C55", "title": "Legendre functions and spherical harmonics have their mathematical values", "statement": "legendre(l,x,m) is (-1)^m (1-x^2)^(m/2) times the m-th derivative of the Legendre polynomial P_l, every entry of assoc_legendre(lmax,x) is the fully normalised associated Legendre function of its degree and order, sph_harm(l,theta,phi,m) is the spherical harmonic, and degrees or orders out of range are rejected.", "quantifier": "all x, all angles, all lmax, all degrees and orders", "why_tests_cant": "tests compare a few degrees at sample points against another library", "anchors": ["pyTMD/math.py:legendre", "pyTMD/math.py:assoc_legendre", "pyTMD/math.py:sph_harm"]}
{"id": "C56", "title": "Approximate sun and moon positions are rotations of their ecliptic positions", "statement": "The approximate ECEF position of the sun (moon) is the point at the series ecliptic longitude (and latitude) and series distance, rotated by the obliquity and the Greenwich hour angle, so that its distance from the geocentre equals the series radius and stays within fixed bounds at all times; full turns of the hour angle do not matter; unknown ephemerides names are rejected.", "quantifier": "all times, all hour angles, all ephemerides names", "why_tests_cant": "continuous time", "anchors": ["pyTMD/astro.py:solar_approximate", "pyTMD/astro.py:lunar_approximate", "pyTMD/astro.py:solar_ecef", "pyTMD/astro.py:lunar_ecef"]}
{"id": "C57", "title": "The tabulated constituent parameters agree with the Doodson numbers and mean longitudes", "statement": "For each of the constituents of _constituent_parameters (the OTIS-type prediction table), the species equals the first Doodson coefficient used by coefficients_table, the tabulated omega is the rate of change of the argument G built from the Doodson coefficients and mean longitudes, to the precision of the table, and the tabulated phase is G at the OTIS epoch 1992-01-01 modulo 2 pi, to the precision of the table.", "quantifier": "all tabulated constituents", "why_tests_cant": "Two independent transcriptions of the same physics (a table of numbers and a formula) are never compared by a test; an error in one row shifts every prediction of one constituent in one family of models only.", "anchors": ["pyTMD/arguments.py:1328-1412 _constituent_parameters", "pyTMD/arguments.py:1172-1225 frequency", "pyTMD/astro.py mean_longitudes"]}
{"id": "C58", "title": "Doodson coefficients of compound tides are the signed sum of those of their parents", "statement": "For every compound tide whose name or nodal rule decomposes it into linear constituents, the seven Doodson coefficients tabulated in data/doodson.json are the signed sum of the coefficients of its parents (the last, a multiple of 90 degrees, modulo 4), so that the phase of the compound is the signed sum of the phases of its parents at all times.", "quantifier": "all tabulated compound tides, all times", "why_tests_cant": "The table has 483 rows transcribed by hand; tests only compare a few rows with other software.", "anchors": ["pyTMD/data/doodson.json", "pyTMD/arguments.py:740-905 doodson_number/coefficients_table", "pyTMD/arguments.py:479-1170 nodal"]}
{"id": "C59", "title": "Named ellipsoids carry their published dimensions", "statement": "Every accepted ellipsoid name yields the semi-major axis and flattening published for that ellipsoid (GRS80: 6378137 m, 1/298.257222101; WGS84: 6378137 m, 1/298.257223563; and so on).", "quantifier": "all ellipsoid names", "why_tests_cant": "tests only exercise the default datum; a copied wrong row is invisible to consistency checks", "anchors": ["pyTMD/crs.py:datum.__init__"]}
{"id": "C60", "title": "Minor inference reproduces an ocean in equilibrium", "statement": "If the supplied major constituents of each species are the equilibrium (Cartwright-Tayler-Edden) amplitudes times one complex response, then every inferred minor constituent of that species has its own equilibrium amplitude times the same response: exactly for the semi-diurnal, diurnal and long-period inference with linear interpolation or admittance functions, and within a few per cent for the short-period relations, with or without FES corrections.", "quantifier": "all responses, all supplied constituent lists, all times and points, both interpolation methods", "why_tests_cant": "continuum of constants; a wrong sign or a swapped row in a coefficient table gives plausible small tides", "anchors": ["pyTMD/predict.py:_infer_short_period", "pyTMD/predict.py:_infer_semi_diurnal", "pyTMD/predict.py:_infer_diurnal", "pyTMD/predict.py:_infer_long_period"]}
{"id": "C61", "title": "Each request reads the files of the requested component", "statement": "Extracting or reading constants from a model object asks the reader of its format for the files of the component requested (u or v, in either letter case; OTIS files hold both), with the grid, projection, version, compression and scale of the object; a component that is not there is an error.", "quantifier": "all model objects and all requests", "why_tests_cant": "all formats, file layouts and components", "anchors": ["pyTMD/io/model.py:model.extract_constants", "pyTMD/io/model.py:model.read_constants"]}
{"id": "C62", "title": "Every built-in model can be selected", "statement": "For every elevation and current model of the built-in database, selecting it on a fresh object succeeds in any directory where its files are (or without verification), the constituents of FES type models are those written in the names of the files, and each format has its nodal corrections and file format.", "quantifier": "all built-in models, directories and compression settings", "why_tests_cant": "the model files are not available to the tests, and all directories", "anchors": ["pyTMD/io/model.py:model.elevation", "pyTMD/io/model.py:model.current", "pyTMD/io/model.py:model.parse_constituents", "pyTMD/data/database.json"]}
{"id": "C63", "title": "Definition files round trip", "statement": "A model exported for JSON and read back from the definition file without a directory has the same attributes; with a directory, the model files are those found for the patterns in the order of the patterns.", "quantifier": "all models and all definition files", "why_tests_cant": "all shapes of file lists", "anchors": ["pyTMD/io/model.py:model._parse_json", "pyTMD/io/model.py:model.to_dict", "pyTMD/io/model.py:model.serialize"]}
{"id": "C64", "title": "The pole and solid earth routines return the radial displacement", "statement": "For every point away from the poles, time, ellipsoid, convention and projection, the height returned by the load pole tide routine is 0.6207 times the centrifugal potential of the displaced pole over normal gravity at that point of the ellipsoid; the ocean pole routine returns the real part of the pole offset times the admittance times the radial coefficient of the map, whatever the two horizontal coefficients; and the solid earth routine returns the radial response to the tide generating potentials of the sun and moon, plus the permanent tide when asked for the mean tide system. The rotation into local coordinates leaves no horizontal displacement in the height.", "quantifier": "all longitudes, latitudes strictly between -90 and 90, times, named ellipsoids, conventions, pole positions, coefficient maps and ephemerides", "why_tests_cant": "A wrong rotation mixes a horizontal component that is an order of magnitude smaller into the height, or drops it at particular latitudes; comparing samples with tolerance does not establish the identity for all points and times.", "anchors": ["pyTMD/compute.py:1006-1097", "pyTMD/compute.py:1225-1326", "pyTMD/compute.py:1432-1504", "pyTMD/predict.py:1065-1265"]}
{"id": "C65", "title": "Masks and depths at the edges of the cells of a C-grid", "statement": "A zonal (meridional) node is open exactly when the cells on both sides of it, to the west and east (south and north), have water, around the globe in global grids and with the first column (row) as its own neighbour otherwise; the depth there is the mean of the two depths if it is open and zero otherwise.", "quantifier": "all bathymetries of any size, global or regional, and all nodes", "why_tests_cant": "an error in the wrapped first column or in the edge row shows only for bathymetries with particular land on the boundary", "anchors": ["pyTMD/io/OTIS.py:2095-2166"]}
{"id": "C67", "title": "Axes of OTIS grids are the cell centres between the limits of the file", "statement": "The axes are evenly spaced, half a cell within the limits at either end, with one coordinate per column (row); limits both west of Greenwich are moved by 360 degrees for grids in longitude and latitude and no others; a grid spans the globe (last minus first is 360 minus one step) exactly if its limits are 360 degrees apart.", "quantifier": "all limits and sizes", "why_tests_cant": "off by half or one cell errors depend on the number of columns", "anchors": ["pyTMD/io/OTIS.py:914-985", "pyTMD/io/OTIS.py:1925-1947"]}
{"id": "C68", "title": "Constants extracted from an OTIS model are those of the nodes around the point", "statement": "The amplitude, phase and depth returned for each point are those of the weighted mean of the valid nodes (of the kind of the variable) around it, in the longitude convention of the model and across the seam of a global model, with velocities divided by the depth; at a node its own; nothing for points outside the model or without valid nodes; a point's result does not depend on the other points asked for; reading the constants first and interpolating them gives the same and leaves them as they were.", "quantifier": "all grids, bathymetries, masks, constituents, coordinate transformations and lists of points, for bilinear and spline interpolation", "why_tests_cant": "the result depends on the mask pattern around the point, on the longitude conventions, the seam and the other points of the batch; samples in open water see none of it", "anchors": ["pyTMD/io/OTIS.py:172-521", "pyTMD/io/OTIS.py:524-734", "pyTMD/io/OTIS.py:737-911", "pyTMD/interpolate.py:39-198"]}
{"id": "C66", "title": "Combined ATLAS solutions have the local values where local solutions are valid and the resampled global ones elsewhere", "statement": "Every cell of the combined two arc minute grid has the value of the last local solution with an unmasked cell there, and otherwise the bilinear interpolant of the global solution at the centre of the cell; the combined mask is open where a local solution is valid and elsewhere that of the nearest global node, and masked exactly where zero; local cells are put at their own place on the globe, for longitudes from -360 to 360 and up to both poles; interpolation goes around the globe.", "quantifier": "all global grids, local solutions, masks and cells", "why_tests_cant": "58 million cells, and the placement differs by one cell, at the seam and at the poles only", "anchors": ["pyTMD/io/OTIS.py:1498-1566", "pyTMD/io/OTIS.py:1569-1618", "pyTMD/io/OTIS.py:1621-1688"]}
{"id": "C69", "title": "Constants extracted from FES and GOT files are those of the nodes around each point", "statement": "For models with a file for each constituent the constant returned for a point is, for each file, the bilinear interpolant of the valid nodes around it (the value of the node at a node; with splines nothing beside an invalid node), in amplitude and phase lag, across the seam of global models; nothing is returned outside of the model; a point has the same constants whatever the other points and files are; reading the files first and interpolating gives the same as extracting.", "quantifier": "all grids evenly spaced, regional and global, every list of files and points, both methods", "why_tests_cant": "the code adjusts the longitudes of all points in place for each file, and extends grids by a number of columns that differs between the modules; faults show only for certain batches, at the seam and at the edges", "anchors": ["pyTMD/io/FES.py:135-345", "pyTMD/io/FES.py:347-446", "pyTMD/io/FES.py:448-600", "pyTMD/io/FES.py:891-928", "pyTMD/io/GOT.py:130-310", "pyTMD/io/GOT.py:312-537", "pyTMD/io/GOT.py:762-813"]}
{"id": "C70", "title": "ATLAS netCDF grid and constituent files are read back as they were written", "statement": "What output_netcdf_grid, output_netcdf_elevation and output_netcdf_transport write is read back by read_netcdf_grid, read_netcdf_elevation and read_netcdf_transport with the same axes, depths, complex constants (each at its own node), masks where the depth is zero, and constituent name; a file without the variable asked for is refused.", "quantifier": "all grids and fields of any size with at least one row, all constituent names", "why_tests_cant": "the files are transposed, split in real and imaginary parts and carry names as arrays of characters; a slip in the order of the dimensions or in the coding of names shows only for some shapes and names", "anchors": ["pyTMD/io/ATLAS.py:689-916", "pyTMD/io/ATLAS.py:918-1207"]}
{"id": "C71", "title": "Constants extracted from ATLAS netCDF files are those of the nodes around each point", "statement": "For ATLAS netCDF models the depth and the constant returned for a point are, for each file, the bilinear interpolants of the valid nodes of the variable around it (the node itself at a node; with splines nothing beside land), currents being transports divided by the depth interpolated at the point, across the seam of global models; nothing is returned outside of the model; reading the files first and interpolating gives the same as extracting, however often it is done.", "quantifier": "all evenly spaced grids, regional and global, every list of files and points, both methods, elevations, transports and velocities", "why_tests_cant": "interpolation writes into the bathymetry that was read and longitudes are adjusted for a whole batch; faults show only after an earlier call, for certain batches, at the seam and at the edges", "anchors": ["pyTMD/io/ATLAS.py:133-391", "pyTMD/io/ATLAS.py:393-498", "pyTMD/io/ATLAS.py:500-687", "pyTMD/io/ATLAS.py:1209-1259"]}
{"id": "C72", "title": "The check of points against the domain of a tide model accepts the points it has water for", "statement": "tide_masks answers for each point whether it is within the limits of the grid of the model and at least one of the nodes around it (at a node the node itself; with the nearest method the nearest node) is water, for OTIS, ATLAS netCDF, GOT and FES models alike; a point is accepted exactly if constants can be extracted for it with the same method.", "quantifier": "all grids with increasing axes, all masks, every list of points, all methods and formats", "why_tests_cant": "the mask is interpolated as a number and rounded down; faults are in the longitude convention, on the edges, beside single land nodes, for certain shapes of the input and for formats no test reads", "anchors": ["pyTMD/compute.py:665-792", "pyTMD/interpolate.py:67-132"]}
{"id": "C73", "title": "Geotiff images are read with the coordinates of their pixels, cropped to what the bounds touch and written back unchanged", "statement": "from_geotiff returns for each band, row and column the value of that pixel with the coordinates of its centre, masked exactly where it is the no-data value; within bounds it returns the pixels whose centres are in the bounds, data and coordinates of the same pixels, and with the extent it returned the same image again; an array written by to_geotiff is read back as it was, and an image that was read and written is the same image.", "quantifier": "all images of any number of bands, rows and columns, transforms and no-data values, all bounds, all arrays", "why_tests_cant": "the one test compares generators that are always true; offsets and counts are truncated separately, so the result depends on how the bounds fall within pixels", "anchors": ["pyTMD/spatial.py:585-683", "pyTMD/spatial.py:1124-1191", "pyTMD/spatial.py:1307-1331"]}
{"id": "C74", "title": "Columns of text are read field by field and written so that they are read back", "statement": "spatial.from_ascii reads a table from text exactly when every line below the header has, for each column, a field that can be converted: fields are those between delimiters, or without a delimiter the numerals of the line (sign, digits with a point, exponent E, e or D), D being read as E, and column k at row i is the conversion of field k of line i. A YAML header ends with the first line that has the closing words; if none has, the whole file is header and the columns are empty. Columns written by spatial.to_ascii are read back as they were, with any delimiter and with or without a header, if their texts convert back and hold neither delimiter nor newline, and the texts of the header neither newline nor '#'. Limits found: a fill value in the header of 'data' always raises TypeError, masks are not written, the letter D of dates is changed, without a delimiter dates and 'nan' shift the columns, and an attribute with the closing words ends the header early.", "quantifier": "all texts, lines, columns, delimiters, header lengths, conversions between numbers and text and header parsers", "why_tests_cant": "One test writes 30 random rows with a header and compares with np.all of a generator, which is always true; no test reads a header with a fill value, a short line, a field that is not a number or a file without delimiter, and the claim is for all texts.", "anchors": ["pyTMD/spatial.py:251-362", "pyTMD/spatial.py:805-874"]}
{"id": "C75", "title": "TMD3 files are read from south to north, and the constants extracted from them are those of the file", "statement": "The constituents of a TMD3 file are the words of its attribute in their order. Depths, water mask and flexure are read at row j from the south as they are stored at that row, the mask being that of zero depth and the factor percent divided by 100; a constant is read as the real part and the negative of the imaginary part at that row. The constant extracted at a node (bilinear) is the amplitude a and lag p with Re = a cos p and Im = a sin p of the file, scaled by the flexure factor if asked for, for currents divided by the depth; nothing is returned on land, at zero constants and where the factor is zero. Extraction returns for all points except those exactly on the last column, and a file with more names than constants raises. Limit found: the masks of the netCDF variables are dropped, so cells that are missing in the file count with their fill value.", "quantifier": "all TMD3 files of any size and number of constituents on even grids, all points and coordinate transformations", "why_tests_cant": "Tests need a downloaded file and compare with another program at fixed points; a wrong sign or row order for one variable, a missing cell or a factor of zero shows only for particular files.", "anchors": ["pyTMD/io/OTIS.py:1079-1121", "pyTMD/io/OTIS.py:1150-1158", "pyTMD/io/OTIS.py:1692-1741", "pyTMD/io/OTIS.py:410-470"]}
{"id": "C76", "title": "Nutation, equation of the equinoxes and sidereal time are those of the IERS tables", "statement": "Every line of the IERS tables 5.2e, 5.3a and 5.3b that lists a term is read as that term (coefficients to single precision), no other line is, and any malformed line is a ValueError; the complementary terms of the equation of the equinoxes are the series of table 5.2e with its fourteen arguments; the angles of nutation are the series of tables 5.3a and 5.3b; the apparent sidereal time is the mean sidereal time plus the equation of the equinoxes, in turns from 0 to 1. As the code is written the multipliers of the planets are ignored (bounded by 11040 and 5532 microarcseconds), the cubic term of the mean obliquity is ten times too small, and one twenty-fourth of the equation in radians is added to a time in turns.", "quantifier": "all lines and files, all tables, all times; the statements about sizes are for the tables of the package and all times (the sidereal time: a thousand years before and after the epoch)", "why_tests_cant": "a test compares a few times against stored values with a tolerance; it does not see which of 2400 terms enters with which argument, nor an error of a few arcseconds in a correction", "anchors": ["pyTMD/astro.py:355-370", "pyTMD/astro.py:644-663", "pyTMD/astro.py:706-761", "pyTMD/astro.py:788-833", "pyTMD/astro.py:946-1029", "pyTMD/data/tab5.2e.txt", "pyTMD/data/tab5.3a.txt", "pyTMD/data/tab5.3b.txt"]}
{"id": "C77", "title": "The tables of the tide-generating potential agree with the Doodson codec, the equilibrium tide and the constituents", "statement": "Every line of a table of the potential that tells a term is read as that term (amplitudes to single precision, Doodson number to seven characters, further columns dropped), and one other line makes the whole file a ValueError. In every row of the three tables of the package the Doodson number is that of the multiples in Doodson's notation, decodes to them, and no two rows share one. The lines of the long-period equilibrium tide are the terms of the 1973 table larger than 2.1 mm with the amplitudes of that table, so that the computed tide is within 10 mm of the response to the whole table at any time and latitude. The equilibrium amplitudes of the constituents are those of the table to 0.8 per cent. As the code is written terms larger than 1 mm are left out though the comment says otherwise, and the amplitude of M1 is five times that of the term its Doodson coefficients name.", "quantifier": "all lines and files; all rows of the three tables of the package; all times and latitudes; all constituents with parameters", "why_tests_cant": "tests convert the numbers of the tables but do not compare the constants of different modules with each other, and the error of a truncated series over all times is not found by sampling", "anchors": ["pyTMD/arguments.py:1328-1412", "pyTMD/arguments.py:1494-1540", "pyTMD/arguments.py:1607-1627", "pyTMD/predict.py:977-1034", "pyTMD/data/d1921_tab.txt", "pyTMD/data/ct1971_tab5.txt", "pyTMD/data/ce1973_tab1.txt"]}
{"id": "C78", "title": "The heights of a request are those of the constants in the files of the tide model", "statement": "For requests of any type the heights come from the arrays in the files: exactly at a node of the grid the height is the sum over the constituents of the real part of f z exp(i u) with the complex constants z of the files at that node (for currents divided by the depth there), and it is masked where the node is land or a constant is missing; between nodes it is the distance-weighted mean of the heights at the nodes around that have their constants (OTIS, FES, GOT and ATLAS files, bilinear interpolation). Every request is answered in the shape of its type with one value for each point and time, values outside of the model are masked, and if the constants cannot be extracted the request raises the same exception. As the code is written a point exactly on the last column of nodes makes the whole request fail, and one point east of a regional model masks all the others.", "quantifier": "all grids, constants, numbers of constituents, points, times, types of request, astronomical arguments and coordinate transformations", "why_tests_cant": "tests compare a few heights at fixed points with stored output; they do not see which file value a height was computed from, nor how one point of a request changes the others", "anchors": ["pyTMD/compute.py:214-439", "pyTMD/compute.py:442-662", "pyTMD/io/model.py:970-1054", "pyTMD/io/OTIS.py:281-480", "pyTMD/io/GOT.py:190-320", "pyTMD/io/FES.py:205-345", "pyTMD/io/ATLAS.py:200-400", "pyTMD/predict.py:59-260"]}
{"id": "C79", "title": "Tables written to parquet files are read as they were", "statement": "A table of columns of one length written with a coordinate reference system is read with the same columns in the same order and with the same values, the attributes with the reference, date and software added, and the projection of that reference. As geoparquet the coordinates go to a column of points and are read from it exactly as x and y, after the other columns. The names asked for are given to the columns. Columns of different lengths, geometries without two coordinates and the encoding of points are refused. As the code is written a file without a reference system (the default) can be written but never read, or not written as geoparquet; with geographic and projected coordinates together x is read as the longitude and y as the x written, and the rest is lost; with the index written a table with a column time cannot be read.", "quantifier": "all tables, attributes, reference systems, names of the geometry, the index and the columns", "why_tests_cant": "the tests write one table with a reference system and one pair of coordinates; defaults and other sets of columns are not tried", "anchors": ["pyTMD/spatial.py:685-766", "pyTMD/spatial.py:1193-1306", "pyTMD/spatial.py:1332-1371"]}
{"id": "C80", "title": "Files are found by their name in any case and read by their format", "statement": "A file that exists is found under its name. Otherwise the file with the same name in another case is found, and FileNotFoundError is raised if there is none. Reading takes one of six formats exactly as they are written, anything else is a ValueError. As the code is written the name is used as a regular expression at the beginning of the names: the last file that begins like it is returned, dots standing for any character, even if the right file is there in another case; names with signs of repetition are not found or raise.", "quantifier": "all directories and names", "why_tests_cant": "tests open files that exist; which other files lie in the directory is not varied", "anchors": ["pyTMD/spatial.py:166-186", "pyTMD/spatial.py:223-253", "pyTMD/spatial.py:768-800"]}
{"id": "C81", "title": "Heights from OTIS files are those of the numbers stored in their bytes", "statement": "From a grid file and a file of heights or transports with the records of the OTIS format (big-endian Fortran records: sizes, limits, time step, open boundary, depths and mask; for each constituent real and imaginary parts row by row from the south and west), or a list of files with one constituent each, a request at a node of the grid returns the tide computed from the single-precision numbers stored for that node and each constituent by name: the node of column i is at the western limit plus (i + 1/2) times the width of a cell, limits west of Greenwich taken 360 degrees east if both are negative and the time step is positive. Between nodes it is the weighted mean of the tides of the four nodes. Nodes without depth, masked nodes and nan are no water. Points outside are masked.", "quantifier": "all contents of the files that fit in 32 bits, all names of at most three printable characters (four for the last), all requests", "why_tests_cant": "the tests that read OTIS files download proprietary models and compare with other programs at some points; an offset of a cell, a swap of columns or a wrong record is a matter of all sizes and contents", "anchors": ["pyTMD/io/OTIS.py:172-521", "pyTMD/io/OTIS.py:914-975", "pyTMD/io/OTIS.py:1124-1217", "pyTMD/io/OTIS.py:1324-1374", "pyTMD/compute.py:214-439"]}
{"id": "C82", "title": "The linear and nearest-neighbour methods return the constants of the nodes around each point", "statement": "With the method linear, a point between four valid nodes of a FES, GOT, ATLAS or OTIS model gets the amplitude and phase of the bilinear interpolant of the complex constants of these nodes (velocities divided by the interpolated depth), and nothing if one of them that counts is missing. With the method nearest it gets the constant and depth of the nearest node, the western and southern one halfway, and nothing if that is missing. Points outside of the nodes get nothing; any points are accepted, also those on the last row and column; other methods are refused. Reading the constants first and interpolating them then gives the same results as extracting them from the files.", "quantifier": "all evenly spaced grids, global or regional, all contents, masks, conventions and points", "why_tests_cant": "the tests interpolate smooth fields at some points; the treatment of masks, of the fill value and of the edges depends on which nodes are missing around each point of each grid", "anchors": ["pyTMD/interpolate.py:201-277", "pyTMD/io/FES.py:303-318", "pyTMD/io/FES.py:549-564", "pyTMD/io/GOT.py:277-285", "pyTMD/io/GOT.py:497-509", "pyTMD/io/ATLAS.py:354-363", "pyTMD/io/ATLAS.py:645-658", "pyTMD/io/OTIS.py:482-491", "pyTMD/io/OTIS.py:869-880"]}
{"id": "C83", "title": "Cropping a model to the bounds of a request does not change its constants", "statement": "With cropping, extracting the constants of FES and GOT models at a point gives the same as without wherever the four nodes around the point are among the columns and rows kept: those within the bounds (the points' own if none are given) and a buffer of four columns, in the longitudes of the bounds, the model being cut at the column next to 180 or 0 degrees where it has other ones. With the default bounds and buffer every point between two columns of the cut model keeps its nodes. Outside of what is kept there is nothing, bounds that contain no row or column raise IndexError, and bounds that are all zero are no bounds.", "quantifier": "all evenly spaced grids, global or regional, all contents and masks, bounds, buffers, methods, numbers of files and points", "why_tests_cant": "whether the cut, the shift and the extension around the globe agree depends on where the bounds, the buffer and the columns of each model lie; a test has one of them", "anchors": ["pyTMD/io/FES.py:252-318", "pyTMD/io/FES.py:930-1036", "pyTMD/io/GOT.py:228-285", "pyTMD/io/GOT.py:816-922"]}
{"id": "C84", "title": "Extrapolated constants come from the nearest valid node within the cutoff", "statement": "With extrapolation, extracting the constants of FES and GOT models leaves every constant that interpolation gives as it is. A point without one gets the amplitude and phase of the valid node of the file nearest to it along the straight line between the two points of the WGS84 ellipsoid, whatever the longitude convention and the columns repeated around the globe, if that node is nearer than the cutoff; otherwise it has none. FES points beyond the columns and rows of the model never have one. After cropping the nodes are those kept. Extrapolation raises no exception that interpolation does not raise.", "quantifier": "all evenly spaced grids, global or regional, all contents and masks, methods, cutoffs of zero or more (or infinity), bounds, buffers, numbers of files and points", "why_tests_cant": "which node is nearest and whether a copied column, a box filter or the order of masked points changes it depends on the positions of all nodes and points of the request together; a test has a few of them", "anchors": ["pyTMD/io/FES.py:278-338", "pyTMD/io/GOT.py:256-301", "pyTMD/interpolate.py:280-420"]}
{"id": "C85", "title": "Extrapolated constants of OTIS models come from the nearest valid node within the cutoff", "statement": "With extrapolation, extracting the constants of OTIS models leaves the depths, the exceptions and every constant that interpolation gives as they are. A point of the model without a constant gets that of the nearest node of the variable (centre or edge of a cell) that has water and a constant other than zero: nearest along the straight line between points of the WGS84 ellipsoid in geographic and in the plane in projected coordinates, whatever the longitude convention and the columns repeated around the globe, if it is nearer than the cutoff; otherwise it has none. Points outside of the model never have one. Velocities are transports divided by the depth.", "quantifier": "all evenly spaced grids, global or regional, geographic or projected, all depths, masks, constituents, variables, methods, cutoffs of zero or more (or infinity) and lists of points", "why_tests_cant": "which node is nearest depends on the positions of all nodes, on the masks of depths and constants and on all points of the request together, and what a masked divisor does to a quotient shows only where both are present; a test has a few of these combinations", "anchors": ["pyTMD/io/OTIS.py:370-395", "pyTMD/io/OTIS.py:454-519", "pyTMD/interpolate.py:280-420"]}
{"id": "C86", "title": "Cropping an OTIS model to the bounds of a request does not change its constants", "statement": "With cropping, extracting the constants of OTIS models is extracting them from the model made of the columns and rows within the bounds (the points' own if none are given) and the buffer (four columns if none is given), in the longitudes of the bounds for geographic models, and reading is reading that model. At a point whose cell of the whole model stays, with the column to its west for zonal and the row to its south for meridional currents, interpolation gives the depth and constants of the whole model. Bounds that contain no row or column raise IndexError, and bounds that are all zero are no bounds.", "quantifier": "all evenly spaced grids, global or regional, geographic or projected, all depths, masks, constituents, variables, methods, bounds, buffers and lists of points", "why_tests_cant": "whether the arrays of depths and of constituents are cut to the same rows and columns depends on where the bounds and the buffer lie between two columns; a test has one position and passes in half of them", "anchors": ["pyTMD/io/OTIS.py:285-319", "pyTMD/io/OTIS.py:340-395", "pyTMD/io/OTIS.py:440-460", "pyTMD/io/OTIS.py:600-734", "pyTMD/io/OTIS.py:1977-2035"]}
{"id": "C87", "title": "Extrapolated constants of ATLAS models come from the nearest wet node within the cutoff", "statement": "With extrapolation, extracting the constants of ATLAS netCDF models leaves the depths, names, exceptions and every constant that interpolation gives as they are. A point of the model without a constant gets that of the nearest node with water, along the straight line between points of the WGS84 ellipsoid, whatever the longitude convention and the columns repeated around the globe, if it is nearer than the cutoff; otherwise it has none. Points outside of the model never have one. Velocities are transports divided by the depth.", "quantifier": "all evenly spaced grids, global or regional, all depths, constituents, variables, methods, cutoffs of zero or more (or infinity) and lists of points", "why_tests_cant": "the nearest node depends on the positions and depths of all nodes and on all points of the request together, and what is left under the mask of the depths shows only in velocities at points on land; a test has a few of these combinations", "anchors": ["pyTMD/io/ATLAS.py:225-390", "pyTMD/interpolate.py:280-420"]}
{"id": "C88", "title": "Cropping an ATLAS model to the bounds of a request does not change its constants", "statement": "With cropping, extracting the constants of ATLAS netCDF models is extracting them from the model made of the columns and rows within the bounds (the points' own if none are given) and the buffer (four columns if none is given), in the longitudes of the bounds. At a point whose cell of the whole model stays, interpolation by every method gives the depth and constants of the whole model. With extrapolation, constants come from the nearest wet node, as without cropping. Bounds that contain no row or column raise IndexError.", "quantifier": "all evenly spaced grids, global or regional, all depths, constituents, variables, methods, bounds, buffers, cutoffs and lists of points", "why_tests_cant": "which rows and columns stay, and whether the model is turned to the other longitude convention before it is cut, depends on where the bounds lie between columns and meridians; a test has one position", "anchors": ["pyTMD/io/ATLAS.py:225-275", "pyTMD/io/ATLAS.py:320-345", "pyTMD/io/ATLAS.py:1261-1324", "pyTMD/io/ATLAS.py:1326-1387"]}
{"id": "C89", "title": "Reading an FES or GOT model and interpolating it later gives the constants of extraction, with cropping and extrapolation", "statement": "Reading a model with one file for each constituent, cropped or not, and interpolating it later, extrapolated or not, gives what extraction from the same files with the same bounds, buffer and cutoff gives at the same points in the longitudes of the columns that were kept. Extrapolation leaves exceptions and interpolated constants as they are, and gives a point without a constant that of the nearest valid node within the cutoff. Bounds that contain no row or no column raise IndexError.", "quantifier": "all evenly spaced grids, global or regional, all masks and constants, both families of models, all methods, bounds, buffers, cutoffs and lists of points", "why_tests_cant": "reading measures the step and widens the grid after the cropping, interpolation adjusts the longitudes to the cropped columns and only then masks the nodes: the two paths differ in order and meet only if no combination of bounds, buffer and longitudes separates them", "anchors": ["pyTMD/io/FES.py:347-446", "pyTMD/io/FES.py:448-593", "pyTMD/io/GOT.py:313-389", "pyTMD/io/GOT.py:392-535"]}
{"id": "C90", "title": "Reading an ATLAS model and interpolating it later gives the constants of extraction, with cropping and extrapolation", "statement": "Reading an ATLAS model, cropped or not, and interpolating it later, extrapolated or not, gives the constants, depths and names that extraction from the same files with the same bounds, buffer and cutoff gives at the same points in the longitudes of the columns that were kept. Reading with cropping is reading the model of the rows and columns within the bounds. Extrapolation leaves exceptions, depths and interpolated constants as they are and gives a point without a constant that of the nearest valid node within the cutoff. Interpolation leaves the constituents as they were read and changes depths under the mask only. Bounds that contain no row or no column raise IndexError.", "quantifier": "all evenly spaced grids, global or regional, all depths and constants, all variables, methods, bounds, buffers, cutoffs and lists of points", "why_tests_cant": "the two paths write NaN or a fill value under the masks of different arrays at different times and measure the grid step before or after the cropping; that none of this reaches the result depends on every node around every point and on all masks", "anchors": ["pyTMD/io/ATLAS.py:393-497", "pyTMD/io/ATLAS.py:500-686", "pyTMD/io/constituents.py:70-85"]}
{"id": "C91", "title": "Extrapolation of OTIS constituents that were read", "statement": "Interpolating the constituents of an OTIS model that were read, with extrapolation, raises exactly the exceptions that it raises without, leaves depths and constants that were interpolated as they are, gives nothing beyond the nodes of the variable, and gives every other point without a constant that of the nearest node within the cutoff that offers one, or nothing if there is none. The depths and constants are those of extraction with extrapolation from the same grid at the same points. A velocity is divided by the depth at the point where there is one.", "quantifier": "all evenly spaced grids, global or regional, projected or geographic, all depths, masks and constants, all variables, methods, cutoffs and lists of points", "why_tests_cant": "the invalid values are replaced in a copy of each constituent before the nodes of the extrapolation are chosen from that copy; which values survive depends on method, mask and zeros at every node, and the depth that divides a velocity has another mask than in extraction only where a corner without weight is the only water", "anchors": ["pyTMD/io/OTIS.py:737-911", "pyTMD/io/OTIS.py:172-521", "pyTMD/interpolate.py:279-420", "pyTMD/io/constituents.py:70-85"]}
{"id": "C92", "title": "Coordinate systems found and used whatever was asked before", "statement": "A description of a coordinate system is read by the first of three attempts that pyproj does not refuse, and a CRSError is raised if all are refused. After any sequence of calls on one instance, failed ones included, the system it holds is that of the last call that found one, and the direction is that of the last convert that found its system and was given a letter. Transforming points uses exactly these. Converting points gives a result that depends on its arguments alone, and converting forward and back gives the same points where pyproj's transformations invert.", "quantifier": "all behaviours of pyproj, all descriptions of systems, all sequences of calls, all points and directions", "why_tests_cant": "the instance keeps its system, name and direction between calls and after exceptions, so the outcome depends on the whole sequence of calls and on which of pyproj's answers are refusals", "anchors": ["pyTMD/crs.py:79-123", "pyTMD/crs.py:126-181", "pyTMD/crs.py:184-215", "pyTMD/crs.py:217-242"]}
{"id": "C93", "title": "Reduction of OTIS grids to a region", "statement": "The grid file that the reduction writes, read back, has exactly the nodes of the original grid within the least and greatest coordinates of the corners of the box, each with its depth; a box without nodes is an IndexError. The file gets the first name of a numbered series that can be created, so that no file is overwritten. The reduced model includes the land mask and the constituents.", "quantifier": "all grid files with evenly spaced axes, all boxes and transformations of their corners, all names and contents of directories", "why_tests_cant": "which rows and columns are kept, the new limits and the bytes of the file depend on every node and limit; the numbers of existing files are unbounded", "anchors": ["scripts/reduce_OTIS_files.py:82-140", "scripts/reduce_OTIS_files.py:142-202", "scripts/reduce_OTIS_files.py:205-226", "pyTMD/io/OTIS.py:1746-1811"]}
{"id": "C94", "title": "Programs computing corrections for a file give what the library gives for its points", "statement": "For the points and times of a file, the programs for tidal elevations and currents, equilibrium, load pole, ocean pole and solid earth tides write the values that the routines of the library return for the same arrays, a grid being that of its two axes whether or not they have the same length. The coordinates are in the system named in the file, and in that of the argument where the file has none that can be read; likewise the unit of the times. A track in a text file is written with one line for each of its points, in order, with its own time, latitude, longitude and value. The types and formats accepted are those documented, with the default arguments.", "quantifier": "all files, arguments, coordinate systems, units of time, tide models, polar motions and ephemerides; any number of points and times", "why_tests_cant": "the agreement is between two programs over all arrays, shapes and arguments; tests of the scripts need the tide models and none runs a grid of solid earth tides or a text file with the default names of columns", "anchors": ["scripts/compute_tidal_elevations.py:207-388", "scripts/compute_tidal_currents.py:201-382", "scripts/compute_LPET_elevations.py:126-238", "scripts/compute_LPT_displacements.py:148-343", "scripts/compute_OPT_displacements.py:167-371", "scripts/compute_SET_displacements.py:145-321", "pyTMD/spatial.py:836-837"]}
{"id": "C95", "title": "Deprecated functions do what they stand for", "statement": "Every deprecated function gives what the function it stands for gives for the same arguments: those of pyTMD/time.py and pyTMD/eop.py what the functions of the same name of the package timescale give, the five compute_*_corrections and check_points what the functions of pyTMD.compute give. compute_corrections selects the function by the name of the correction in any case, given by position or by name, as pyTMD.compute.corrections does, and refuses any other name. After the import of the package, crs, check_points and compute_tide_corrections stand for the class and the functions, and every other submodule for itself.", "quantifier": "all arguments, all contents of the packages, all behaviours of their functions, all settings of warnings, all orders in which submodules load each other", "why_tests_cant": "what a wrapper calls depends on what its global names stand for when it is called, after the whole module has been run; no test calls a function of pyTMD/time.py", "anchors": ["pyTMD/time.py:53-355", "pyTMD/eop.py:29-240", "pyTMD/check_points.py:80-119", "pyTMD/compute_tide_corrections.py:108-174", "pyTMD/__init__.py:14-44", "pyTMD/compute.py:167-211"]}
{"id": "C96", "title": "The interactive map shows the location of its marker", "statement": "Longitudes are shown on the same meridian, from -180 degrees (excluded) to 180, whatever turns they are given with. Moving the marker, or typing a location, sets off a chain of updates between the marker and its text which ends, after three moves at most, with the marker where it was put to the eighth decimal, and with the text of that location; any other text is an exception which leaves the marker. The centre of the map follows the marker. The label of the cursor shows where the cursor is. A map made with any choice of arguments has the system of its projection, the controls asked for, and the marker at its centre.", "quantifier": "all longitudes, locations, texts, states of the map and arguments; chains of updates of any length", "why_tests_cant": "that the chain of updates ends for every location, also next to the antimeridian where the text is wrapped twice, is a statement about all reals; the widgets are not tested", "anchors": ["pyTMD/tools.py:184-301"]}
{"id": "C97", "title": "Downloading a tide model brings every file asked for up to date, and doing it again changes nothing", "statement": "After a run that ends without exception, every file of the model asked for (every member of its tar files that is a file, in the format asked for) is at its place under the local directory, and is not older than the one of the host to the even second. A local file is replaced only if it is out of date, then by the contents and the time of the file of the host; no other file is touched. A second run writes nothing. The files asked for are those of the model with the options given, each read in the way its name calls for; files stay within the local directory; only hidden files are passed over; files keep their contents unless their name says they are compressed; an interrupted download is repeated. A model that is downloaded is where the database looks for it.", "quantifier": "all models, options, tar files, hosts, listings, local file systems, contents and times", "why_tests_cant": "the programs need credentials and gigabytes from hosts that tests cannot reach, so no test runs them; interrupted transfers, name collisions and unusual member names do not occur on demand", "anchors": ["scripts/gsfc_got_tides.py:54-130", "scripts/aviso_fes_tides.py:116-131", "scripts/aviso_fes_tides.py:141-259", "scripts/aviso_fes_tides.py:282-387", "pyTMD/data/database.json"]}
{"id": "C98", "title": "Listings of hosts keep every name with its time, and files fetched are those of the host", "statement": "A listing has the names that match the pattern, each with its own time; sorted, it is the same rows in the order of the names, rows of one name in the order of the host. A file fetched is returned whole whatever the size of the parts it is copied by; the local file is written exactly if the hash given is another, no other file is touched, and fetching again with the hash of the local file writes nothing. Files are verified exactly if every file of interest has the hash of the host, and verifying changes no contents. A time is the number of seconds since 1970 of the date and time of day, the same instant having the same value on every machine.", "quantifier": "all listings, patterns, contents, hash functions, sizes of parts, local files, dates and texts", "why_tests_cant": "the functions need hosts on the network; tests reach a few listings of the day, none with missing times, equal names or offsets", "anchors": ["pyTMD/utilities.py:214-250", "pyTMD/utilities.py:386-412", "pyTMD/utilities.py:516-690", "pyTMD/utilities.py:750-904", "pyTMD/utilities.py:1277-1628", "scripts/verify_box_tpxo.py:83-136"]}
{"id": "C99", "title": "Extracting the Arctic models leaves their files, and nothing else, in the directory of the model", "statement": "A run for an Arctic model that ends without exception leaves, in the directory of the model, each file of the package whose name has a word of the pattern, under the last component of its name and with its contents, of two with one name the last; every other local file is as it was, and a second run changes nothing. It ends without exception exactly if the model is one of the five, its package is there and every such name ends in the name of a file. Directories of the package are passed over. The program for CATS2008 downloads it. The files that the database names for an Arctic model are where it names them.", "quantifier": "all packages, model names, directories and local files", "why_tests_cant": "the programs need hosts on the network, and tests do not reach packages with directories, repeated names or names in subdirectories", "anchors": ["scripts/arcticdata_tides.py:56-107", "scripts/usap_cats_tides.py:52-94", "pyTMD/data/database.json"]}
{"id": "C100", "title": "The login tries credentials in turn and ends with those accepted, and a token is requested once", "statement": "A login uses the credentials given, else those of the environment, and asks for what is missing. Pairs of a user name and a password are tried in turn up to the number of retries: the login ends with the first pair that the host accepts, whose opener is the one in use, and is an exception if none of them is accepted; a pair that is asked for is tried. An opener has the credentials it was built with and follows redirects exactly if asked to. The functions on tokens send one request, as their last act, exactly if the login succeeded or was not asked for, and return the answer. Requests to CDDIS have the credentials given, or those stored if none are given, in the opener as in the header.", "quantifier": "all sequences of typed user names and passwords, hosts, numbers of retries, stored and given credentials, environments and answers", "why_tests_cant": "the functions need a host, credentials and a person typing; tests have one set of valid credentials and no failing login", "anchors": ["pyTMD/utilities.py:944-1275", "pyTMD/utilities.py:1319-1339", "pyTMD/utilities.py:1420-1440"]}
{"id": "C101", "title": "A copied or moved file arrives whole, and an interrupted copy loses nothing", "statement": "Copying a file gives the destination the bytes and the status (mode and times) of the source and changes no other file; moving it also removes the source. At whatever call a copy or move is interrupted, the bytes and the status of the source can be read from the source or from the destination. A copy of a file to itself or to another name of it, to a directory, to a name that cannot be created or of a file that does not exist is an exception and changes nothing. A file that is replaced has either its old or its new bytes.", "quantifier": "all file systems with hard links, all files and names, all pieces in which the bytes are written, all points of interruption", "why_tests_cant": "tests copy one file and cannot interrupt the copy at each of its calls", "anchors": ["pyTMD/utilities.py:457-483"]}
