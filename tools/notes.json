{
 "C07": {
  "note": "Supplied minors (lower case) are not inferred; refuted for names in another case."
 },
 "C08": {
  "note": "Sum over exactly the requested and missing minors, proved when the request is not the single first minor; refuted with the np.any([0]) witness."
 },
 "C10": {
  "note": "Injectivity, rejection, positional value, table round trip, dictionary form and case rules proved; round trip characterised exactly (iff) and refuted for numbers that end in 0 without X/E."
 },
 "C11": {
  "note": "Round trip, injectivity, string direction and alphabet proved for -8..16; rejection outside refuted (-33..-9 wrap by negative indexing), which affects the shipped constituents 2t7, s9, s10, s11, s12."
 },
 "C13": {
  "note": "Refuted for the FES scheme: l2 and constituents built on it (and minor column 15) mix degrees of perigee with radians, so are not periodic in p. Everything else proved."
 },
 "C14": {
  "note": "Product/sum rule proved for the 140 compounds the code handles and positivity for all constituents; refuted for msk6/snk6 (wrong sign), o2 (substring match with ko2), 146 tabulated compounds without a branch, and for parents with own GOT/perth3 factors."
 },
 "C16": {
  "note": "rotate, precession, nutation and polar motion proved to be rotations (and the documented products); the frame bias matrix is refuted as an exact isometry and proved to 3e-13, hence the terrestrial product likewise."
 },
 "C18": {
  "note": "to_cartesian proved to give the documented surface, normal and directions; the spherical, Moritz, Bowring and closed-form inverses proved exact at their fixed points, the Moritz iteration proved to converge with an explicit error bound for any batch, the closed form proved to invert exactly, and coordinates above the evolute proved unique."
 },
 "C19": {
  "note": "Closed form exact for batches without polar points and for all-polar batches; batch independence refuted for mixed batches (polar point changes its neighbours)."
 },
 "C20": {
  "note": "Offsets, identity, kept meridian coordinate, special bands and array behaviour proved, and that the Newton iteration reaches the exact position (quadratic convergence); identity refuted within eps radians of the pole, and 'caller arrays not modified' refuted for latitudes beyond the poles."
 },
 "C22": {
  "note": "Decomposition and reverse proved; the round trip is proved for 0 and for |d| >= 1 degree and refuted for every 0 < |d| < 1 (sign(degrees) is 0, so the angle is lost)."
 },
 "C25": {
  "note": "dk proved to be minus the flattening for every datum, hence refuted as Somigliana's constant for every named ellipsoid; Pizzetti's theorem and the equator/height-zero consistency proved."
 },
 "C27": {
  "note": "Exactness proved away from nodes (outside the 1e-5 relative snapping tolerance), nodes, bounds, masking, independence from invalid corners and outside points proved; exactness refuted near nodes (snapping), and a point on a cell edge whose only valid corners are opposite gets an unmasked nan."
 },
 "C28": {
  "note": "Every point whose longitude is not the last grid longitude is served; the last longitude is accepted by the validity test and raises ValueError in every grid, failing the whole batch."
 },
 "C29": {
  "note": "Proved for geographic and projected grids, for all grids, points and cutoffs; the kd-tree query is described (trusted) as nearest node with distance below the bound."
 },
 "C31": {
  "note": "Data/meridian association, completeness, monotonicity and exact base column proved; 'never fails' refuted (fails exactly when the nearest column is the first)."
 },
 "C32": {
  "note": "Exact node set, failure condition and neighbour preservation without convention change; soundness with convention change.",
  "status": "proved"
 },
 "C33": {
  "note": "Proved for OTIS read+interpolate and FES/ATLAS extract; refuted with witnesses for OTIS extract (batch dependence) and FES/ATLAS read+interpolate, with the proved restrictions in the _partial theorems."
 },
 "C34": {
  "note": "Record placement proved; coverage of (179.75,180] refuted, coverage of [-180,179.75] proved."
 },
 "C35": {
  "note": "Everything but the mask is read back for big-endian arrays; the mask is refuted (the bathymetry is written twice, so the mask that is read does not depend on the mask written), and arrays in native byte order are refuted (tofile ignores its format argument)."
 },
 "C36": {
  "note": "Elevations and transports of any shape are read back for every constituent index; refuted for names longer than four characters, which shift every record."
 },
 "C37": {
  "note": "Names of at most three characters (four for the last one) are read back; adjacent four-character names are refuted (they fuse)."
 },
 "C38": {
  "note": "Proved for any sequence of local solutions (elevations, transports, bathymetry) whose constituent names are separable by blanks; refuted when a four-character name fuses with the next, which hides that constituent of the local solution."
 },
 "C39": {
  "note": "Proved for every grid with at least one full line per row and a shorter last line; grids narrower than a line (unbound loop variable) and grids whose rows fill their lines exactly cannot be read, proved for all such sizes; rows whose last line lost all but its first value are read without an exception, that value spread over the missing ones."
 },
 "C40": {
  "note": "Round trip of values, masks and names proved for GOT files and for heights in FES files. Refuted: currents (u, v) cannot be written in FES form, names longer than four characters cannot be written, a cell with zero tide comes back masked from a FES file, files written cannot be read as FES2012 or HAMTIDE11."
 },
 "C41": {
  "note": "Refinement of an ordered list of named values for every history of proper calls (a name appended once, items assigned to listed names, no name of the class itself); refuted with witnesses for duplicate names, unlisted item assignment, class names and nested iteration."
 },
 "C42": {
  "note": "Leftmost standing name for every ASCII text, any case, idempotent, total on the 68 known names (exceptions mtide and s20 stated); refuted for the 403 other tabulated constituents, 198 of which are taken for another constituent."
 },
 "C43": {
  "note": "Proved: a successful selection gives the definition with its files placed in the directory, for an object with any history; attributes of the definition do not depend on the history; extracting and interpolating twice. Refuted: attributes that the definition does not mention (scale, version, projection) stay; after a model with a grid file one without cannot be selected (NameError); constituents cached before a new selection are used after it; append_node on FES gives more names than columns the second time."
 },
 "C44": {
  "note": "The extra database replaces the whole table: a database with an elevation table removes every built-in elevation model it does not list (C44_builtin_lost_refuted). Characterised for any number of databases."
 },
 "C45": {
  "note": "Round trip, serialization of regular values and validation are proved. Refuted: the documented format FES-ascii is rejected; an empty list raises IndexError; paths after a non-path element are not serialized."
 },
 "C48": {
  "note": "The classification is characterised for all sizes; two-dimensional meshes passed with a time axis of another length are refuted."
 },
 "C49": {
  "note": "Full value and shape of the equilibrium tide, symmetry, zero, bound, additivity proved. Refuted: 'mf+' has 2s+N in the predictors but 2s-N here; the node tide appended to a model is constant in time under OTIS-type corrections."
 },
 "C50": {
  "note": "Off the axis of rotation; polar motion and mean pole (timescale package) are parameters."
 },
 "C51": {
  "note": "Off the axis of rotation (at the poles the code divides by zero); sun and moon coordinates are parameters."
 },
 "C52": {
  "note": "Moon, sun, perigee and node proved; the solar perigee is returned unnormalised (refuted), its value is proved."
 },
 "C53": {
  "note": "Proved for all inputs; url_split does not terminate on a path containing an empty directory next to the root (recursion limit), stated as a refutation."
 },
 "C54": {
  "note": "Short-period family drops masks (refuted), pivot families propagate them."
 },
 "C55": {
  "note": "legendre and assoc_legendre (all degrees and orders) proved; assoc_legendre(0) fails (refuted); sph_harm carries an extra factor sin(theta) (refuted, exact factor proved)."
 },
 "C56": {
  "note": "Positions, distances and bounds proved; unknown ephemerides names fall through (refuted)."
 },
 "C57": {
  "note": "Species, omega, phase and resulting prediction phase proved for all 33 rows; refuted for constituents outside the table, which silently get omega = phase = 0."
 },
 "C58": {
  "note": "Proved for all compounds except eleven rows of doodson.json which are refuted; 2mn6/2mnu6 and 3mn8/3mnu8 coincide."
 },
 "C59": {
  "note": "Proved for thirteen of the fifteen names; refuted for GRS80 and NAD83, which carry the WGS72 axis and flattening."
 },
 "C60": {
  "note": "Exact for the three pivot families and both methods; within 1.2 per cent (3 per cent with FES) for the short-period relations except l2b, refuted with FES (it receives the coefficients of the larger L2 line, almost four times too much); without FES corrections eps2 and eta2 get nothing."
 },
 "C61": {
  "note": "Proved for elevations, ATLAS and OTIS, and for reading FES. Refuted for extracting FES currents, where the whole dictionary is passed as the list of files."
 },
 "C63": {
  "note": "Proved for files in lists, for single OTIS elevation files and for patterns searched in a directory, of elevations and of currents. Refuted for single files of other formats and for all OTIS currents, which come back as a list of characters."
 },
 "C46": {
  "note": "Long period, load pole, ocean pole and model tide routines return one value per point however the request is packaged. The solid earth grid is off by a day (refuted), the case of TYPE is not uniform (refuted) and few constituents with inference raise (refuted)."
 },
 "C47": {
  "note": "What each writer puts in the file proved for every conforming drift, grid and time series dataset and for HDF5; netCDF read back proved to give the same arrays and masks; any run, failed or not, changes nothing of the caller's but fill values. Refuted: the caller's attributes are changed (fill values popped), so a second write loses them; appending never works; HDF5 loses masks and scalars; attribute lookup by prefix."
 },
 "C65": {
  "note": "Masks proved in full. Depths proved except in the first column of regional grids, where the code makes the mask as if the grid were global (refuted there)."
 },
 "C67": {
  "note": "Proved."
 },
 "C68": {
  "note": "Bilinear and linear spline extraction characterised for every grid, mask and list of points through the longitude convention the code chooses; partial because the first zonal column of regional grids (C65) is left out and for splines all file values are finite. Refuted: independence from the other points (regional models; global models with a point just west of Greenwich), any result when a point is on the last column, agreement of reading and extracting in the first half cell of velocities and for masked constituents with splines."
 },
 "C66": {
  "note": "Values, masks and placement characterised for every grid and list of local solutions on the globe; refuted: resampling across the Greenwich seam, placement of local solutions whose limits are cell edges (one cell west and south) and of a row at latitude -90 (put in the northernmost row). Coordinates are exact reals."
 },
 "C69": {
  "note": "Values characterised for every file, point and method on evenly spaced grids whose files share one longitude convention, for points from -360 to 540 degrees. Refuted: values on the first and last rows and any result with a point on the last column (bilinear), nothing outside of the model (GOT with splines), independence of the other files (files of mixed convention), agreement of reading and extracting (global models from 0 to 360 and a batch of points in the western hemisphere given as 180 to 360). No cropping, extrapolation or linear and nearest methods."
 },
 "C70": {
  "note": "Axes, depths and constants are characterised for every shape; refuted: masked constants come back as zeros that are not masked, names written are not read back (the variable is declared with an encoding, under which netCDF4 returns one string of at least fifteen characters), names of more than four characters cannot be written. netCDF4 itself is a contract (a dataset holds what was put in its variables)."
 },
 "C71": {
  "note": "Values and depths characterised for every file, point and method on evenly spaced grids. Refuted: any result with a point on the last column (bilinear), repeating an interpolation (a bilinear one changes the bathymetry that was read, after which splines lose velocities on the edges of cells with land), agreement of reading and extracting (nodes within a cell of the meridian and points given as 180 to 360 degrees). No cropping, extrapolation or linear and nearest methods."
 },
 "C72": {
  "note": "For every format that is read, every method and list of points: exactly which points are accepted; agreement with bilinear extraction proved for ATLAS models from 0 to 360 degrees within cells away from nodes. Refuted: agreement with spline extraction beside land, between the last column and 360 degrees and for models from -180 to 180; western points with linear and nearest (asked for as given, not as 0 to 360); any answer for numbers and for tables of more than one row, for FES-ascii, GOT-netcdf and with bilinear for a point on the last column."
 },
 "C73": {
  "note": "Whole images, windows and their coordinates, masks and extents characterised for every image; read, written and read again is the same for one band. Refuted: pixels with their centres within the bounds are left out when both fractions are large, bounds given as the edges of the image return no data, a no-data value of zero masks nothing, masks of arrays are not written, several bands are written with their axes exchanged, and the default driver cannot create files (GDAL contract). Exact real numbers."
 },
 "C74": {
  "note": "conversions of numbers and dates to and from text and the YAML parser are parameters; that values of a header are texts (BaseLoader) and that numpy refuses a text as fill value of numbers is a contract of the model; delimiters are one character, digits ascii; opening and compression left out"
 },
 "C75": {
  "note": "exact real numbers, no cropping or extrapolation; composition with the extraction of C68 at nodes (bilinear); that masked netCDF cells are assigned with their fill values is a contract of the model"
 },
 "C76": {
  "note": "exact real arithmetic except for the single precision of the coefficients as read; sidereal time, terrestrial time and the factor from table units to radians are parameters of the timescale package; numbers with exponents in the tables are taken to be malformed. Refuted: planetary arguments, obliquity, sidereal time, files that end early"
 },
 "C77": {
  "note": "All lines and files (C77_line, C77_line_only, C77_table), Doodson's notation (C77_decoded), all rows of the shipped tables (C77_numbers), the long-period equilibrium tide against the whole table for all times and latitudes (C77_long_period, C77_lines, C77_largest), amplitudes of the constituents (C77_amplitudes). False as written: all terms above 1 mm are used (C77_one_millimetre_refuted), the amplitude of M1 (C77_m1_refuted)."
 },
 "C78": {
  "note": "Composition of the models of extraction (C68, C69, C71) with the prediction of a request (C46): at nodes and within cells the heights are those of the file constants; C78_constants without the assumption that nodes have all constants or none. Bilinear interpolation; splines go through C78_request with the extracted constants. Refuted as stated: C78_last_column_refuted (a point on the last column of nodes makes the request raise), C78_points_refuted (a point east of a regional model masks all points of the request)."
 },
 "C79": {
  "note": "Proved in full under the stated hypotheses (C79_round_trip, C79_geometry, C79_columns, C79_refused). Refuted: without a reference system (C79_no_reference_refuted, C79_no_geometry_refuted), with two pairs of coordinates (C79_coordinates_refuted), with the index written (C79_index_refuted). pandas, pyarrow, shapely and osr are contracts."
 },
 "C80": {
  "note": "The search is characterised for names without special characters other than the dot (C80_found, C80_missing) and for names with signs of repetition after single characters (C80_signs, C80_signs_missing, with the instances of a name as an inductive relation); the claim holds if no other file begins like the name (C80_ignoring_case_partial) and is refuted otherwise (C80_prefix_refuted, C80_dot_refuted, C80_plus_refuted, C80_special_refuted)."
 },
 "C81": {
  "note": "Composition of the readers of OTIS files (C35-C37) with extraction and prediction (C68, C78): the layout of the files is specified byte by byte in OtisFilesSpec, independently of the readers and writers, with the value of single-precision patterns. Bilinear interpolation; limits and depths are finite; exact arithmetic on the stored numbers; the names are legible (C37_fused_refuted shows what happens to others)."
 },
 "C82": {
  "note": "Characterised for every point of FES, GOT, ATLAS netCDF and OTIS models on evenly spaced grids; scipy's RegularGridInterpolator is its documented contract. Results equal to numpy's fill value (1e20) are excluded from the statements (unfilled). Refuted for OTIS models: the mask of a constituent is not used (C82_otis_mask_refuted: the number under it is interpolated), and zeros of the water count as 1e20 once the constituents have been read (C82_otis_zero_refuted). C82_otis_read_heights and C82_otis_read_inside prove the equality of both ways where no constant of the water is masked or zero. No cropping, no extrapolation; cubic and other methods of scipy are not modelled."
 },
 "C83": {
  "note": "Characterised for FES and GOT with the spline, bilinear, linear and nearest methods (C83_spline, _cell, _node, _linear, _nearest), in the vocabulary of CropSpec.v; C83_same_spline and C83_same_linear state the equality with the extraction without cropping. Refuted at the seam: between the last column and the first one a cropped FES model has nothing where the whole model has a constant (C83_seam_refuted), a cropped GOT model has the value of its first column (C83_edge_refuted); a model whose first column is the nearest one to the meridian of the cut cannot be cropped (C83_first_column_refuted, ValueError). Extrapolation is C84. Not covered: OTIS and ATLAS models, C83_outside for spacings below 1/200 degree."
 },
 "C84": {
  "note": "Characterised by comparison with the same request without extrapolation (C84_filled for whole models, C84_cropped for cropped ones), whose constants are those of C69, C82 and C83 (C84_off, _off_whole, _off_regular); C84_errors: the same exceptions. The distance is defined in ShoreSpec.v independently of the code's conversion. Refuted: cropping to the points' own bounds keeps the extrapolated constants (C84_crop_refuted: the nearest valid node can be farther away than the buffer). Among nodes at equal distance the theorem leaves open which one is taken. Spline, linear and nearest need numbers under the mask. Not covered: OTIS and ATLAS models, C84_cropped for spacings below 1/200 degree or models wider than the globe, Cartesian axes."
 },
 "C85": {
  "note": "Characterised by comparison with the same request without extrapolation (C85_filled), which is the extraction of C68 and C82 constituent by constituent (C85_off, _off_regular, _off_returns); C85_errors: the same exceptions; C85_returns: when it returns. Refuted: velocities are divided by the depth (C85_velocity_refuted: where the depth at the point is masked, the numpy.ma quotient keeps the transport). Among nodes at equal distance the theorem leaves open which one is taken. Spline, linear and nearest need numbers under the mask of the constituent. Not covered: zonal variables of regional models (the depths of their first column, C65), cropped models."
 },
 "C86": {
  "note": "C86_model: extraction with cropping is extraction (C68, C82, C85) from the model of the rows and columns kept; C86_cell: in terms of the whole model for bilinear interpolation; C86_reading the same for read_constants; C86_off, C86_whole, C86_empty, C86_returns. Refuted for currents: the axes the constituents are cropped with are lowered by half a step in place (C86_zonal_refuted, C86_meridional_refuted: no result where the first column or row kept is less than half a step within the bounds; C86_default_refuted: with the bounds of the points that is so whenever the westernmost point lies in the western half of a cell of heights). Cell by cell only for cropped models that do not go around the globe; spline, linear and nearest through C86_model only. Geographic grids with spacing above 1/250 degree and at most 360 degrees of columns."
 },
 "C87": {
  "note": "C87_off and C87_off_regular: without the options extraction is that of C71 and C82; C87_errors, C87_kept: exceptions, depths and names do not change; C87_filled: which points are filled and from which node, for every method; C87_returns. Refuted for velocities: where the depth is masked they are divided by 1e20/100 with bilinear interpolation and by the depth interpolated with zeros on land otherwise (C87_filled, C87_velocity_refuted). Cropping is C88."
 },
 "C88": {
  "note": "C88_model: extraction with cropping is extraction (C71, C82, C87) from the model of the rows and columns kept, where that leaves the longitudes of the points as they are; C88_cell, C88_spline (also method linear), C88_nearest: in terms of the whole model; C88_filled: extrapolated constants come from the nearest wet node that is kept, for every method; C88_returns, C88_empty (C87_off: bounds that are all zero are none; C87_errors and C87_kept hold with cropping too). Refuted for extrapolation: the nearest wet node of the whole model may have been cropped (C88_fill_refuted). Grids with spacing above 1/250 degree and at most 360 degrees of columns; cells of the seam of a model around the globe that is kept whole through C88_model only."
 },
 "C89": {
  "note": "C89_reading_off, C89_interpolation_off: without the options reading and interpolation are those of C69 and C82; C89_read: reading and interpolating is extraction, with extrapolation; C89_cropped: also for a model cropped when it is read, at the points in the longitudes of the columns kept; C89_spline: that in terms of the whole model; C89_filled: which points are filled and from which node; C89_errors, C89_empty. Differences: a single column kept is an IndexError when the model is read (C89_single); the default buffer is zero when a model is read and four columns when it is extracted (C89_default_refuted). Grids with spacing above 1/200 degree and at most 360 degrees of columns when cropped; all files of a model have the same grid; splines and linear interpolation for constants that are numbers also under the mask."
 },
 "C90": {
  "note": "C90_reading_off, C90_interpolation_off: without the options reading and interpolation are those of C71 and C82; C90_read: reading and interpolating is extraction, with extrapolation; C90_model: reading with cropping is reading the model of the rows and columns within the bounds, for any margin; C90_cropped: interpolating it is extraction with cropping, at the points in the longitudes of the columns kept; C90_filled, C90_filled_cropped: which points are filled and from which node; C90_errors, C90_left, C90_empty. Differences: a single column kept is an IndexError when the model is read (C90_single); the default buffer is zero when a model is read and four columns when it is extracted (C90_default_refuted). Grids with spacing above 1/250 degree and at most 360 degrees of columns when cropped; splines and linear interpolation for constants that are numbers also under the mask; points in the frames of C71."
 },
 "C91": {
  "note": "C91_errors: the same exceptions; C91_off, C91_off_regular: without the option interpolation is that of C68 and C82; C91_filled: which points are filled and from which node, compared with the result without extrapolation; C91_read_heights, C91_read_inside: the same as extraction (C85) for heights, and for all variables at points within the nodes of the variable; C91_returns: when it returns. Refuted: zero constants of water count as 1e20 for the regular grid methods (C91_zero_refuted); bilinear velocities where the depth is not a number are lost (C91_nan, C91_edge_refuted), so C91_read_inside excludes bilinear velocities. Splines: masked constants only on land; regular grid methods: constants of water that are not masked and not zero; numbers under the mask."
 },
 "C92": {
  "note": "C92_found: how a description is read; C92_get: all or nothing; C92_held: system, direction and name after any sequence of calls, by induction over the calls; C92_transform, C92_convert: every result and exception; C92_round_trip; C92_dictionary, C92_describe: exceptions that escape. Refuted: a convert that fails leaves the request as name beside the former system (C92_name_refuted); transform without direction goes backwards after a convert backwards (C92_forward_refuted). pyproj and int() of a string are parameters."
 },
 "C93": {
  "note": "C93_grid: from the bytes of the file to the bytes of the reduced file and back, where the new limits are exact in single precision; C93_empty: the exceptions; C93_name, C93_distinct, C93_base: the name; C93_forever: no end where nothing can be created. Refuted: the mask is lost (C93_mask_refuted, from C35) and no constituents are ever written (C93_constituents_refuted); open boundary nodes keep the indices of the whole grid and western longitudes come back 360 degrees higher (C93_grid). ATLAS-compact grids: C93_atlas (the parts of the combined depths and mask of C66, with the outer edges of their cells), C93_atlas_file (the bytes of the file, read back); refuted: boxes in negative longitudes are an IndexError (C93_atlas_west_refuted) and of boxes across Greenwich only the east is kept (C93_atlas_greenwich_refuted)."
 },
 "C94": {
  "note": "C94_elevations, C94_currents, C94_long_period, C94_load_pole, C94_ocean_pole, C94_solid_earth: agreement with the library for every type; C94_projection: the system used and every exception; C94_csv_lines, C94_csv_elevations: the lines of a track; C94_lengths, C94_formats: exceptions. Refuted: grids of solid earth tides of more than one point (C94_solid_earth_grid_refuted), text files with the default names of columns (C94_columns_refuted), grids and stations in text files (C94_csv_refuted), the spelling of types (C94_types_refuted), the unit given for times given as argument (C94_unit_refuted). Readers, pyproj and timescale are parameters; of the writers only the shapes required by to_ascii are modelled; exact real arithmetic without NaN."
 },
 "C95": {
  "note": "C95_eop, C95_wrappers, C95_compute_corrections, C95_same_choice, C95_package: the wrappers and the names of the package. Refuted: every function of pyTMD/time.py is an AttributeError, as the class defined at the end of the module takes the name of the package its functions look in (C95_time_refuted, where the class timescale.time.Timescale has no attribute named time); under any other name of the class all of them are right (C95_time_renamed). The contents and behaviour of other packages are parameters; case conversion is ASCII."
 },
 "C96": {
  "note": "C96_wrap, C96_marker, C96_typed, C96_cursor, C96_init. Refuted: the map goes back to the marker when it is moved, and stays where it is when the marker is moved (C96_center_refuted); without the argument marker_control the map is a KeyError (C96_default_refuted). The widgets are modelled by the values read and assigned, with notification on change as in traitlets; exact real arithmetic, the sign of zero is not modelled."
 },
 "C97": {
  "note": "C97_names, C97_inside, C97_got, C97_got_ends, C97_got_table, C97_plan, C97_fes, C97_fes_only, C97_fes_again, C97_fes2022. Refuted: the currents of FES2014 are never downloaded and end the run with an exception (C97_currents_refuted), those of FES2022 are never asked for (C97_currents2022_refuted); a member name can reach any local file (C97_inside_refuted); files with an underscore as second character are passed over (C97_hidden_refuted); with GZIP all files are compressed, also those whose name does not say so (C97_gzip_refuted); what was written of an interrupted download counts as the file from then on (C97_interrupted_refuted, C97_fes_interrupted_refuted). The hosts, tar, gzip and lzma are parameters; directories, permissions and the log are not modelled. C97_fes2014_database, C97_fes2022_database: FES2014 and FES2022 are where the database looks for them; C97_fes2012_refuted: FES2012 is not, as its directory is flattened."
 },
 "C98": {
  "note": "C98_listing, C98_base, C98_ftp, C98_http, C98_cddis, C98_iers, C98_uhslc, C98_copy, C98_from_http, C98_from_ftp, C98_hash, C98_no_hash, C98_kernel, C98_box, C98_timegm, C98_unix_time. Refuted: a row of a page with a name and no time shifts the times of all rows that follow (C98_http_refuted); the offset of a time read by its format is dropped (C98_zone_refuted), as in verify_box_tpxo; a time without offset read by dateutil depends on the machine (C98_machine_refuted); from_jpl_ssd with a local file stores the default kernel in it under any name (C98_kernel_refuted). The hosts' answers, hash functions and parsers of dates are parameters."
 },
 "C99": {
  "note": "C99_arctic, C99_arctic_ends, C99_arctic_again, C99_database. Refuted: a directory of the package whose name has a word of the pattern ends the run with an exception (C99_directory_refuted); usap_cats_tides returns before its download and changes no file (C99_usap_refuted). The package is a parameter; zipfile.extract is modelled by its documented treatment of names."
 },
 "C100": {
  "note": "C100_login, C100_stored, C100_given, C100_retries, C100_opener, C100_tokens, C100_token_login, C100_cddis. Refuted: where the password is stored or given, a failing login is an UnboundLocalError and not tried again (C100_retry_refuted); a pair asked for after the last retry is not tried, and the prompt keeps the first user name (C100_asked_refuted); credentials given are not used if the .netrc file has an entry (C100_given_refuted); the functions on tokens do not use the environment (C100_environment_refuted); redirects are followed whatever is asked (C100_redirect_refuted). A request to CDDIS without credentials has the header \"None:None\" (C100_cddis_refuted). The host is a set of accepted pairs."
 },
 "C101": {
  "note": "C101_copy, C101_crash, C101_errors, C101_bytes, C101_linked (a replaced file is replaced under all of its names). Refuted: a file that is replaced is emptied first, and has neither its old nor its new bytes where the copy is interrupted then (C101_replaced_refuted). Special files are not modelled, the calls of shutil are from the standard library."
 }
}