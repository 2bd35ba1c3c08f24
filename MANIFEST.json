{
 "claims": [
  {
   "property": "C01",
   "status": "proved",
   "theorems": [
    "C01_map_linear",
    "C01_drift_linear",
    "C01_time_series_linear",
    "C01_zero_constants_zero_tide"
   ],
   "note": ""
  },
  {
   "property": "C02",
   "status": "proved",
   "theorems": [
    "C02_order_irrelevant",
    "C02_groups_add"
   ],
   "note": ""
  },
  {
   "property": "C03",
   "status": "proved",
   "theorems": [
    "C03_predictors_agree",
    "C03_predictors_total"
   ],
   "note": ""
  },
  {
   "property": "C04",
   "status": "proved",
   "theorems": [
    "C04_sum_of_cosines",
    "C04_bounded_by_amplitudes",
    "C04_bound_attained"
   ],
   "note": ""
  },
  {
   "property": "C05",
   "status": "proved",
   "theorems": [
    "C05_mask_iff",
    "C05_mask_iff_drift",
    "C05_mask_iff_time_series",
    "C05_empty_constituents"
   ],
   "note": ""
  },
  {
   "property": "C06",
   "status": "proved",
   "theorems": [
    "C06_solve_inverts_prediction",
    "C06_solve_rejects"
   ],
   "note": ""
  },
  {
   "property": "C07",
   "status": "partial",
   "theorems": [
    "C07_supplied_not_inferred_partial",
    "C07_any_case_refuted"
   ],
   "note": "Supplied minors (lower case) are not inferred; refuted for names in another case."
  },
  {
   "property": "C08",
   "status": "partial",
   "theorems": [
    "C08_short_period_sum_partial",
    "C08_nothing_wanted",
    "C08_semi_diurnal_sum_partial",
    "C08_diurnal_sum_partial",
    "C08_long_period_sum_partial",
    "C08_interpolation_exact_at_pivots",
    "C08_single_request_refuted",
    "C08_first_minor_alone_dropped"
   ],
   "note": "Sum over exactly the requested and missing minors, proved when the request is not the single first minor; refuted with the np.any([0]) witness."
  },
  {
   "property": "C09",
   "status": "proved",
   "theorems": [
    "C09_missing_majors",
    "C09_no_majors_no_minor_tide",
    "C09_linear_in_majors"
   ],
   "note": ""
  },
  {
   "property": "C10",
   "status": "partial",
   "theorems": [
    "C10_roundtrip_iff_partial",
    "C10_roundtrip_refuted",
    "C10_injective",
    "C10_rejects",
    "C10_number_value",
    "C10_table_roundtrip",
    "C10_dictionary",
    "C10_case_insensitive",
    "C10_unknown_name"
   ],
   "note": "Injectivity, rejection, positional value, table round trip, dictionary form and case rules proved; round trip characterised exactly (iff) and refuted for numbers that end in 0 without X/E."
  },
  {
   "property": "C11",
   "status": "partial",
   "theorems": [
    "C11_roundtrip",
    "C11_injective",
    "C11_rejects_outside_partial",
    "C11_rejects_outside_refuted",
    "C11_string_roundtrip",
    "C11_bad_string_rejected",
    "C11_alphabet",
    "C11_table_roundtrip_partial",
    "C11_table_roundtrip_refuted"
   ],
   "note": "Round trip, injectivity, string direction and alphabet proved for -8..16; rejection outside refuted (-33..-9 wrap by negative indexing), which affects the shipped constituents 2t7, s9, s10, s11, s12."
  },
  {
   "property": "C12",
   "status": "proved",
   "theorems": [
    "C12_arguments",
    "C12_phase",
    "C12_tide",
    "C12_unreduced"
   ],
   "note": ""
  },
  {
   "property": "C13",
   "status": "partial",
   "theorems": [
    "C13_node",
    "C13_perigee_partial",
    "C13_perigee_refuted",
    "C13_minor_node",
    "C13_minor_perigee_partial",
    "C13_minor_perigee_refuted"
   ],
   "note": "Refuted for the FES scheme: l2 and constituents built on it (and minor column 15) mix degrees of perigee with radians, so are not periodic in p. Everything else proved."
  },
  {
   "property": "C14",
   "status": "partial",
   "theorems": [
    "C14_recursion_depth",
    "C14_factor_positive",
    "C14_compound",
    "C14_as_linear",
    "C14_actual_parents",
    "C14_unhandled_refuted",
    "C14_wrong_sign_refuted",
    "C14_substring_refuted",
    "C14_actual_parents_refuted"
   ],
   "note": "Product/sum rule proved for the 140 compounds the code handles and positivity for all constituents; refuted for msk6/snk6 (wrong sign), o2 (substring match with ko2), 146 tabulated compounds without a branch, and for parents with own GOT/perth3 factors."
  },
  {
   "property": "C15",
   "status": "proved",
   "theorems": [
    "C15_difference_quotient",
    "C15_derivative",
    "C15_constant_rate",
    "C15_rate_within_a_century",
    "C15_aliasing",
    "C15_aliasing_period"
   ],
   "note": ""
  },
  {
   "property": "C16",
   "status": "partial",
   "theorems": [
    "C16_rotate_is_rotation",
    "C16_axes",
    "C16_additive",
    "C16_axis_names",
    "C16_other_axis_rejected",
    "C16_precession",
    "C16_nutation",
    "C16_polar_motion",
    "C16_frame_bias_refuted",
    "C16_frame_bias_partial",
    "C16_itrs_partial",
    "C16_itrs_westward"
   ],
   "note": "rotate, precession, nutation and polar motion proved to be rotations (and the documented products); the frame bias matrix is refuted as an exact isometry and proved to 3e-13, hence the terrestrial product likewise."
  },
  {
   "property": "C17",
   "status": "proved",
   "theorems": [
    "C17_round_trip",
    "C17_round_trip_back",
    "C17_isometry",
    "C17_reference_is_origin",
    "C17_height",
    "C17_axes",
    "C17_horizontal",
    "C17_zenith"
   ],
   "note": ""
  },
  {
   "property": "C18",
   "status": "proved",
   "theorems": [
    "C18_bowring_fixed_point",
    "C18_bowring_exact_when_fixed",
    "C18_bowring_batch",
    "C18_bowring_surface",
    "C18_dispatch",
    "C18_surface",
    "C18_normal",
    "C18_directions",
    "C18_turns",
    "C18_sphere",
    "C18_sphere_inverts",
    "C18_moritz_fixed_point",
    "C18_moritz_exact_when_fixed",
    "C18_moritz_error",
    "C18_moritz_converges",
    "C18_moritz_batch",
    "C18_moritz_surface",
    "C18_unique",
    "C18_closed_form_inverts"
   ],
   "note": "to_cartesian proved to give the documented surface, normal and directions; the spherical, Moritz, Bowring and closed-form inverses proved exact at their fixed points, the Moritz iteration proved to converge with an explicit error bound for any batch, the closed form proved to invert exactly, and coordinates above the evolute proved unique."
  },
  {
   "property": "C19",
   "status": "partial",
   "theorems": [
    "C19_closed_form_exact_partial",
    "C19_polar_partial",
    "C19_batch_refuted"
   ],
   "note": "Closed form exact for batches without polar points and for all-polar batches; batch independence refuted for mixed batches (polar point changes its neighbours)."
  },
  {
   "property": "C20",
   "status": "partial",
   "theorems": [
    "C20_delta_antisymmetric",
    "C20_delta_same",
    "C20_delta_additive",
    "C20_delta_equator_pole",
    "C20_delta_between",
    "C20_delta_clipped",
    "C20_identity",
    "C20_identity_near_pole_refuted",
    "C20_low_latitude",
    "C20_high_latitude",
    "C20_lengths",
    "C20_array",
    "C20_caller_kept_partial",
    "C20_caller_modified_refuted",
    "C20_equator_pole",
    "C20_mirror",
    "C20_exact"
   ],
   "note": "Offsets, identity, kept meridian coordinate, special bands and array behaviour proved, and that the Newton iteration reaches the exact position (quadratic convergence); identity refuted within eps radians of the pole, and 'caller arrays not modified' refuted for latitudes beyond the poles."
  },
  {
   "property": "C21",
   "status": "proved",
   "theorems": [
    "C21_range",
    "C21_same_meridian",
    "C21_identity",
    "C21_idempotent",
    "C21_periodic"
   ],
   "note": ""
  },
  {
   "property": "C22",
   "status": "partial",
   "theorems": [
    "C22_parts",
    "C22_round_trip_partial",
    "C22_round_trip_refuted",
    "C22_reverse"
   ],
   "note": "Decomposition and reverse proved; the round trip is proved for 0 and for |d| >= 1 degree and refuted for every 0 < |d| < 1 (sign(degrees) is 0, so the angle is lost)."
  },
  {
   "property": "C23",
   "status": "proved",
   "theorems": [
    "C23_conformal",
    "C23_reference",
    "C23_positive",
    "C23_even",
    "C23_area",
    "C23_metric"
   ],
   "note": ""
  },
  {
   "property": "C24",
   "status": "proved",
   "theorems": [
    "C24_identities",
    "C24_polar_curvature",
    "C24_volume",
    "C24_area",
    "C24_density",
    "C24_units",
    "C24_unknown_name",
    "C24_unknown_rejected",
    "C24_unknown_units",
    "C24_user_defined",
    "C24_half_user_defined",
    "C24_named",
    "C24_keywords",
    "C24_constants",
    "C24_normal_field"
   ],
   "note": ""
  },
  {
   "property": "C25",
   "status": "partial",
   "theorems": [
    "C25_pizzetti",
    "C25_equator",
    "C25_dk_is_minus_flattening",
    "C25_dk_refuted",
    "C25_somigliana",
    "C25_gradient",
    "C25_height"
   ],
   "note": "dk proved to be minus the flattening for every datum, hence refuted as Somigliana's constant for every named ellipsoid; Pizzetti's theorem and the equator/height-zero consistency proved."
  },
  {
   "property": "C26",
   "status": "proved",
   "theorems": [
    "C26_trajectory",
    "C26_ranges",
    "C26_inverse_trajectory",
    "C26_round_trip",
    "C26_round_trip_parameters"
   ],
   "note": ""
  },
  {
   "property": "C27",
   "status": "partial",
   "theorems": [
    "C27_exact_partial",
    "C27_node",
    "C27_snapped",
    "C27_exact_refuted",
    "C27_between",
    "C27_no_leak",
    "C27_all_masked",
    "C27_outside",
    "C27_edge_nan_refuted"
   ],
   "note": "Exactness proved away from nodes (outside the 1e-5 relative snapping tolerance), nodes, bounds, masking, independence from invalid corners and outside points proved; exactness refuted near nodes (snapping), and a point on a cell edge whose only valid corners are opposite gets an unmasked nan."
  },
  {
   "property": "C28",
   "status": "partial",
   "theorems": [
    "C28_served_partial",
    "C28_last_longitude_refuted",
    "C28_batch_refuted",
    "C28_batch"
   ],
   "note": "Every point whose longitude is not the last grid longitude is served; the last longitude is accepted by the validity test and raises ValueError in every grid, failing the whole batch."
  },
  {
   "property": "C29",
   "status": "proved",
   "theorems": [
    "C29_projected",
    "C29_geographic",
    "C29_no_points",
    "C29_distance"
   ],
   "note": "Proved for geographic and projected grids, for all grids, points and cutoffs; the kd-tree query is described (trusted) as nearest node with distance below the bound."
  },
  {
   "property": "C30",
   "status": "proved",
   "theorems": [
    "C30_extension_periodic",
    "C30_extension_periodic_got",
    "C30_extension_total"
   ],
   "note": ""
  },
  {
   "property": "C31",
   "status": "partial",
   "theorems": [
    "C31_shift_keeps_meridian",
    "C31_shift_loses_nothing",
    "C31_shift_increasing",
    "C31_shift_base",
    "C31_shift_success_iff",
    "C31_shift_never_fails_refuted"
   ],
   "note": "Data/meridian association, completeness, monotonicity and exact base column proved; 'never fails' refuted (fails exactly when the nearest column is the first)."
  },
  {
   "property": "C32",
   "status": "proved",
   "theorems": [
    "C32_crop_exact",
    "C32_crop_success_iff",
    "C32_crop_shifted_sound",
    "C32_crop_keeps_neighbours"
   ],
   "note": "Exact node set, failure condition and neighbour preservation without convention change; soundness with convention change."
  },
  {
   "property": "C33",
   "status": "partial",
   "theorems": [
    "C33_otis_interpolate_all_longitudes",
    "C33_fes_extract_all_longitudes",
    "C33_otis_extract_refuted",
    "C33_otis_extract_partial",
    "C33_fes_interpolate_refuted",
    "C33_fes_interpolate_partial"
   ],
   "note": "Proved for OTIS read+interpolate and FES/ATLAS extract; refuted with witnesses for OTIS extract (batch dependence) and FES/ATLAS read+interpolate, with the proved restrictions in the _partial theorems."
  },
  {
   "property": "C34",
   "status": "partial",
   "theorems": [
    "C34_records_land_in_their_cell",
    "C34_coverage_refuted",
    "C34_coverage_partial"
   ],
   "note": "Record placement proved; coverage of (179.75,180] refuted, coverage of [-180,179.75] proved."
  },
  {
   "property": "C35",
   "status": "partial",
   "theorems": [
    "C35_grid_partial",
    "C35_mask_refuted",
    "C35_native_refuted"
   ],
   "note": "Everything but the mask is read back for big-endian arrays; the mask is refuted (the bathymetry is written twice, so the mask that is read does not depend on the mask written), and arrays in native byte order are refuted (tofile ignores its format argument)."
  },
  {
   "property": "C36",
   "status": "partial",
   "theorems": [
    "C36_elevation",
    "C36_transport",
    "C36_index",
    "C36_long_name_refuted"
   ],
   "note": "Elevations and transports of any shape are read back for every constituent index; refuted for names longer than four characters, which shift every record."
  },
  {
   "property": "C37",
   "status": "partial",
   "theorems": [
    "C37_names_partial",
    "C37_fused_refuted"
   ],
   "note": "Names of at most three characters (four for the last one) are read back; adjacent four-character names are refuted (they fuse)."
  },
  {
   "property": "C38",
   "status": "partial",
   "theorems": [
    "C38_elevation_partial",
    "C38_fused_names_refuted",
    "C38_transport_partial",
    "C38_grid"
   ],
   "note": "Proved for any sequence of local solutions (elevations, transports, bathymetry) whose constituent names are separable by blanks; refuted when a four-character name fuses with the next, which hides that constituent of the local solution."
  },
  {
   "property": "C39",
   "status": "partial",
   "theorems": [
    "C39_got_partial",
    "C39_fes_partial",
    "C39_narrow_refuted",
    "C39_exact_width_refuted",
    "C39_got_exact_width_refuted",
    "C39_cut_refuted"
   ],
   "note": "Proved for every grid with at least one full line per row and a shorter last line; grids narrower than a line (unbound loop variable) and grids whose rows fill their lines exactly cannot be read, proved for all such sizes; rows whose last line lost all but its first value are read without an exception, that value spread over the missing ones."
  },
  {
   "property": "C40",
   "status": "partial",
   "theorems": [
    "C40_codec",
    "C40_masked_fill",
    "C40_got",
    "C40_got_nan",
    "C40_fes_heights_partial",
    "C40_currents_refuted",
    "C40_long_name_refuted",
    "C40_no_tide_refuted",
    "C40_other_versions_refuted",
    "C40_variable_names"
   ],
   "note": "Round trip of values, masks and names proved for GOT files and for heights in FES files. Refuted: currents (u, v) cannot be written in FES form, names longer than four characters cannot be written, a cell with zero tide comes back masked from a FES file, files written cannot be read as FES2012 or HAMTIDE11."
  },
  {
   "property": "C41",
   "status": "partial",
   "theorems": [
    "C41_refinement",
    "C41_get_last",
    "C41_pop",
    "C41_iteration",
    "C41_duplicate_refuted",
    "C41_setitem_unlisted_refuted",
    "C41_update_method_refuted",
    "C41_property_name_refuted",
    "C41_nested_iteration_refuted"
   ],
   "note": "Refinement of an ordered list of named values for every history of proper calls (a name appended once, items assigned to listed names, no name of the class itself); refuted with witnesses for duplicate names, unlisted item assignment, class names and nested iteration."
  },
  {
   "property": "C42",
   "status": "partial",
   "theorems": [
    "C42_leftmost",
    "C42_case",
    "C42_canonical",
    "C42_file_name",
    "C42_idempotent",
    "C42_total",
    "C42_errors",
    "C42_tabulated_refuted"
   ],
   "note": "Leftmost standing name for every ASCII text, any case, idempotent, total on the 68 known names (exceptions mtide and s20 stated); refuted for the 403 other tabulated constituents, 198 of which are taken for another constituent."
  },
  {
   "property": "C43",
   "status": "partial",
   "theorems": [
    "C43_elevation",
    "C43_history_partial",
    "C43_stale_refuted",
    "C43_stale_scale_refuted",
    "C43_current",
    "C43_missing_file",
    "C43_reselect_refuted",
    "C43_extract_twice",
    "C43_append_node_refuted",
    "C43_interpolate_twice",
    "C43_interpolate_stale_refuted"
   ],
   "note": "Proved: a successful selection gives the definition with its files placed in the directory, for an object with any history; attributes of the definition do not depend on the history; extracting and interpolating twice. Refuted: attributes that the definition does not mention (scale, version, projection) stay; after a model with a grid file one without cannot be selected (NameError); constituents cached before a new selection are used after it; append_node on FES gives more names than columns the second time."
  },
  {
   "property": "C44",
   "status": "partial",
   "theorems": [
    "C44_one_database",
    "C44_none",
    "C44_last_database",
    "C44_builtin_lost_refuted",
    "C44_errors"
   ],
   "note": "The extra database replaces the whole table: a database with an elevation table removes every built-in elevation model it does not list (C44_builtin_lost_refuted). Characterised for any number of databases."
  },
  {
   "property": "C45",
   "status": "partial",
   "theorems": [
    "C45_round_trip",
    "C45_serialize",
    "C45_empty_list_refuted",
    "C45_mixed_list_refuted",
    "C45_validate",
    "C45_validate_twice",
    "C45_documented_refuted"
   ],
   "note": "Round trip, serialization of regular values and validation are proved. Refuted: the documented format FES-ascii is rejected; an empty list raises IndexError; paths after a non-path element are not serialized."
  },
  {
   "property": "C46",
   "status": "partial",
   "theorems": [
    "C46_long_period",
    "C46_load_pole",
    "C46_ocean_pole",
    "C46_solid_earth_partial",
    "C46_solid_earth_grid_partial",
    "C46_case_refuted",
    "C46_solid_earth_refuted",
    "C46_tide_elevations",
    "C46_tide_currents",
    "C46_few_constituents_refuted",
    "C46_type_left_out",
    "C46_square_axes_refuted",
    "C46_corrections"
   ],
   "note": "Long period, load pole, ocean pole and model tide routines return one value per point however the request is packaged. The solid earth grid is off by a day (refuted), the case of TYPE is not uniform (refuted) and few constituents with inference raise (refuted)."
  },
  {
   "property": "C47",
   "status": "partial",
   "theorems": [
    "C47_only_fill_partial",
    "C47_only_fill_hdf5_partial",
    "C47_drift",
    "C47_grid",
    "C47_series",
    "C47_hdf5",
    "C47_netcdf_read",
    "C47_hdf5_read_partial",
    "C47_caller_changed_refuted",
    "C47_twice_refuted",
    "C47_append_refuted",
    "C47_append_hdf5_refuted",
    "C47_unknown_kind",
    "C47_hdf5_mask_lost_refuted",
    "C47_hdf5_scalar_refuted",
    "C47_attribute_lost_refuted",
    "C47_square_grid_refuted"
   ],
   "note": "What each writer puts in the file proved for every conforming drift, grid and time series dataset and for HDF5; netCDF read back proved to give the same arrays and masks; any run, failed or not, changes nothing of the caller's but fill values. Refuted: the caller's attributes are changed (fill values popped), so a second write loses them; appending never works; HDF5 loses masks and scalars; attribute lookup by prefix."
  },
  {
   "property": "C48",
   "status": "partial",
   "theorems": [
    "C48_classification",
    "C48_mesh_refuted"
   ],
   "note": "The classification is characterised for all sizes; two-dimensional meshes passed with a time axis of another length are refuted."
  },
  {
   "property": "C49",
   "status": "partial",
   "theorems": [
    "C49_elementwise",
    "C49_outer",
    "C49_hemispheres",
    "C49_node_latitude",
    "C49_bound",
    "C49_additive",
    "C49_same_arguments",
    "C49_mf_plus_refuted",
    "C49_appended_node",
    "C49_appended_node_otis_refuted"
   ],
   "note": "Full value and shape of the equilibrium tide, symmetry, zero, bound, additivity proved. Refuted: 'mf+' has 2s+N in the predictors but 2s-N here; the node tide appended to a model is constant in time under OTIS-type corrections."
  },
  {
   "property": "C50",
   "status": "proved",
   "theorems": [
    "C50_load_pole_tide",
    "C50_determined",
    "C50_shapes",
    "C50_zero_at_mean_pole",
    "C50_linear",
    "C50_isometry",
    "C50_ocean_pole_tide",
    "C50_ocean_zero_at_mean_pole"
   ],
   "note": "Off the axis of rotation; polar motion and mean pole (timescale package) are parameters."
  },
  {
   "property": "C51",
   "status": "proved",
   "theorems": [
    "C51_solid_earth_tide",
    "C51_systems",
    "C51_errors",
    "C51_addition_theorem"
   ],
   "note": "Off the axis of rotation (at the poles the code divides by zero); sun and moon coordinates are parameters."
  },
  {
   "property": "C52",
   "status": "partial",
   "theorems": [
    "C52_polynomial_is_horner",
    "C52_polynomial_linear",
    "C52_normalize",
    "C52_mean_longitudes",
    "C52_perigee_value",
    "C52_perigee_in_range_refuted",
    "C52_precedence",
    "C52_doodson_range",
    "C52_doodson_tau",
    "C52_phase_angles",
    "C52_delaunay_range",
    "C52_delaunay_agree"
   ],
   "note": "Moon, sun, perigee and node proved; the solar perigee is returned unnormalised (refuted), its value is proved."
  },
  {
   "property": "C53",
   "status": "partial",
   "theorems": [
    "C53_url_split",
    "C53_url_split_double_slash_refuted",
    "C53_arguments",
    "C53_roman_value",
    "C53_roman_inverse",
    "C53_even",
    "C53_ceil"
   ],
   "note": "Proved for all inputs; url_split does not terminate on a path containing an empty directory next to the root (recursion limit), stated as a refutation."
  },
  {
   "property": "C54",
   "status": "partial",
   "theorems": [
    "C54_short_period_never_masked",
    "C54_mask_propagates_refuted",
    "C54_pivot_families_mask"
   ],
   "note": "Short-period family drops masks (refuted), pivot families propagate them."
  },
  {
   "property": "C55",
   "status": "partial",
   "theorems": [
    "C55_legendre",
    "C55_legendre_rejects",
    "C55_assoc_legendre",
    "C55_assoc_legendre_total_refuted",
    "C55_sph_harm_partial",
    "C55_sph_harm_refuted"
   ],
   "note": "legendre and assoc_legendre (all degrees and orders) proved; assoc_legendre(0) fails (refuted); sph_harm carries an extra factor sin(theta) (refuted, exact factor proved)."
  },
  {
   "property": "C56",
   "status": "partial",
   "theorems": [
    "C56_sun",
    "C56_moon",
    "C56_hour_angle",
    "C56_unknown_ephemerides_refuted",
    "C56_ephemerides_names_partial"
   ],
   "note": "Positions, distances and bounds proved; unknown ephemerides names fall through (refuted)."
  },
  {
   "property": "C57",
   "status": "partial",
   "theorems": [
    "C57_species",
    "C57_omega",
    "C57_phase",
    "C57_prediction",
    "C57_untabulated_refuted"
   ],
   "note": "Species, omega, phase and resulting prediction phase proved for all 33 rows; refuted for constituents outside the table, which silently get omega = phase = 0."
  },
  {
   "property": "C58",
   "status": "partial",
   "theorems": [
    "C58_coefficients_partial",
    "C58_coefficients_refuted",
    "C58_duplicates_refuted",
    "C58_phase_partial"
   ],
   "note": "Proved for all compounds except eleven rows of doodson.json which are refuted; 2mn6/2mnu6 and 3mn8/3mnu8 coincide."
  },
  {
   "property": "C59",
   "status": "partial",
   "theorems": [
    "C59_published_partial",
    "C59_grs80_refuted",
    "C59_every_name"
   ],
   "note": "Proved for thirteen of the fifteen names; refuted for GRS80 and NAD83, which carry the WGS72 axis and flattening."
  },
  {
   "property": "C60",
   "status": "partial",
   "theorems": [
    "C60_semi_diurnal",
    "C60_diurnal",
    "C60_long_period",
    "C60_short_period_partial",
    "C60_short_period_fes_partial",
    "C60_l2b_fes_refuted"
   ],
   "note": "Exact for the three pivot families and both methods; within 1.2 per cent (3 per cent with FES) for the short-period relations except l2b, refuted with FES (it receives the coefficients of the larger L2 line, almost four times too much); without FES corrections eps2 and eta2 get nothing."
  },
  {
   "property": "C61",
   "status": "partial",
   "theorems": [
    "C61_elevation",
    "C61_currents_partial",
    "C61_no_component",
    "C61_fes_currents_refuted"
   ],
   "note": "Proved for elevations, ATLAS and OTIS, and for reading FES. Refuted for extracting FES currents, where the whole dictionary is passed as the list of files."
  },
  {
   "property": "C62",
   "status": "proved",
   "theorems": [
    "C62_elevation",
    "C62_constituents",
    "C62_current",
    "C62_corrections"
   ],
   "note": ""
  },
  {
   "property": "C63",
   "status": "partial",
   "theorems": [
    "C63_round_trip_partial",
    "C63_single_file_refuted",
    "C63_otis_current_refuted",
    "C63_patterns",
    "C63_current_patterns"
   ],
   "note": "Proved for files in lists, for single OTIS elevation files and for patterns searched in a directory, of elevations and of currents. Refuted for single files of other formats and for all OTIS currents, which come back as a list of characters."
  },
  {
   "property": "C64",
   "status": "proved",
   "theorems": [
    "C64_load_pole",
    "C64_ocean_pole",
    "C64_solid_earth"
   ],
   "note": ""
  },
  {
   "property": "C65",
   "status": "partial",
   "theorems": [
    "C65_masks",
    "C65_depths_partial",
    "C65_western_edge_refuted",
    "C65_empty"
   ],
   "note": "Masks proved in full. Depths proved except in the first column of regional grids, where the code makes the mask as if the grid were global (refuted there)."
  },
  {
   "property": "C67",
   "status": "proved",
   "theorems": [
    "C67_centres",
    "C67_limits",
    "C67_global"
   ],
   "note": "Proved."
  },
  {
   "property": "C68",
   "status": "partial",
   "theorems": [
    "C68_half_cell_refuted",
    "C68_mask_refuted",
    "C68_cell_partial",
    "C68_node",
    "C68_outside",
    "C68_single",
    "C68_seam_refuted",
    "C68_points_refuted",
    "C68_read_heights",
    "C68_read_inside",
    "C68_unchanged",
    "C68_returns",
    "C68_last_column_refuted",
    "C68_again_spline_partial",
    "C68_spline_partial"
   ],
   "note": "Bilinear and linear spline extraction characterised for every grid, mask and list of points through the longitude convention the code chooses; partial because the first zonal column of regional grids (C65) is left out and for splines all file values are finite. Refuted: independence from the other points (regional models; global models with a point just west of Greenwich), any result when a point is on the last column, agreement of reading and extracting in the first half cell of velocities and for masked constituents with splines."
  },
  {
   "property": "C66",
   "status": "partial",
   "theorems": [
    "C66_resample",
    "C66_combine",
    "C66_mask",
    "C66_greenwich_refuted",
    "C66_edges_refuted",
    "C66_south_refuted",
    "C66_north"
   ],
   "note": "Values, masks and placement characterised for every grid and list of local solutions on the globe; refuted: resampling across the Greenwich seam, placement of local solutions whose limits are cell edges (one cell west and south) and of a row at latitude -90 (put in the northernmost row). Coordinates are exact reals."
  },
  {
   "property": "C69",
   "status": "partial",
   "theorems": [
    "C69_cell",
    "C69_node",
    "C69_spline",
    "C69_outside",
    "C69_rows_refuted",
    "C69_got_outside_refuted",
    "C69_returns",
    "C69_last_column_refuted",
    "C69_alternate_refuted",
    "C69_read",
    "C69_read_refuted"
   ],
   "note": "Values characterised for every file, point and method on evenly spaced grids whose files share one longitude convention, for points from -360 to 540 degrees. Refuted: values on the first and last rows and any result with a point on the last column (bilinear), nothing outside of the model (GOT with splines), independence of the other files (files of mixed convention), agreement of reading and extracting (global models from 0 to 360 and a batch of points in the western hemisphere given as 180 to 360). No cropping, extrapolation or linear and nearest methods."
  },
  {
   "property": "C70",
   "status": "partial",
   "theorems": [
    "C70_grid",
    "C70_grid_shape",
    "C70_elevation",
    "C70_transport",
    "C70_masks_refuted",
    "C70_other_variable",
    "C70_names_refuted",
    "C70_names",
    "C70_long_names_refuted"
   ],
   "note": "Axes, depths and constants are characterised for every shape; refuted: masked constants come back as zeros that are not masked, names written are not read back (the variable is declared with an encoding, under which netCDF4 returns one string of at least fifteen characters), names of more than four characters cannot be written. netCDF4 itself is a contract (a dataset holds what was put in its variables)."
  },
  {
   "property": "C71",
   "status": "partial",
   "theorems": [
    "C71_cell",
    "C71_node",
    "C71_spline",
    "C71_outside",
    "C71_returns",
    "C71_last_column_refuted",
    "C71_read",
    "C71_repeat",
    "C71_spline_keeps",
    "C71_changed_refuted",
    "C71_read_refuted",
    "C71_missing",
    "C71_other",
    "C71_read_returns"
   ],
   "note": "Values and depths characterised for every file, point and method on evenly spaced grids. Refuted: any result with a point on the last column (bilinear), repeating an interpolation (a bilinear one changes the bathymetry that was read, after which splines lose velocities on the edges of cells with land), agreement of reading and extracting (nodes within a cell of the meridian and points given as 180 to 360 degrees). No cropping, extrapolation or linear and nearest methods."
  },
  {
   "property": "C72",
   "status": "partial",
   "theorems": [
    "C72_spline",
    "C72_linear",
    "C72_nearest",
    "C72_bilinear",
    "C72_last_column_refuted",
    "C72_shapes_refuted",
    "C72_formats_refuted",
    "C72_depths",
    "C72_outside",
    "C72_regular_refuted",
    "C72_agrees",
    "C72_spline_refuted",
    "C72_seam_refuted",
    "C72_west_refuted"
   ],
   "note": "For every format that is read, every method and list of points: exactly which points are accepted; agreement with bilinear extraction proved for ATLAS models from 0 to 360 degrees within cells away from nodes. Refuted: agreement with spline extraction beside land, between the last column and 360 degrees and for models from -180 to 180; western points with linear and nearest (asked for as given, not as 0 to 360); any answer for numbers and for tables of more than one row, for FES-ascii, GOT-netcdf and with bilinear for a point on the last column."
  },
  {
   "property": "C73",
   "status": "partial",
   "theorems": [
    "C73_read",
    "C73_bounds",
    "C73_cover",
    "C73_beyond_refuted",
    "C73_edges_refuted",
    "C73_extent",
    "C73_write_read",
    "C73_again",
    "C73_bands_refuted",
    "C73_masks_refuted",
    "C73_zero_fill_refuted",
    "C73_default_refuted",
    "C73_cover_refuted",
    "C73_west_refuted"
   ],
   "note": "Whole images, windows and their coordinates, masks and extents characterised for every image; read, written and read again is the same for one band. Refuted: pixels with their centres within the bounds are left out when both fractions are large, bounds given as the edges of the image return no data, a no-data value of zero masks nothing, masks of arrays are not written, several bands are written with their axes exchanged, and the default driver cannot create files (GDAL contract). Exact real numbers."
  },
  {
   "property": "C74",
   "status": "partial",
   "theorems": [
    "C74_read",
    "C74_header",
    "C74_unended",
    "C74_round_trip",
    "C74_round_trip_header",
    "C74_masks_refuted",
    "C74_dates_refuted",
    "C74_date_fields_refuted",
    "C74_nan_refuted",
    "C74_closing_refuted",
    "C74_fill_refuted"
   ],
   "note": "conversions of numbers and dates to and from text and the YAML parser are parameters; that values of a header are texts (BaseLoader) and that numpy refuses a text as fill value of numbers is a contract of the model; delimiters are one character, digits ascii; opening and compression left out"
  },
  {
   "property": "C75",
   "status": "partial",
   "theorems": [
    "C75_names",
    "C75_grid",
    "C75_constants",
    "C75_extract",
    "C75_returns",
    "C75_short",
    "C75_missing_refuted"
   ],
   "note": "exact real numbers, no cropping or extrapolation; composition with the extraction of C68 at nodes (bilinear); that masked netCDF cells are assigned with their fill values is a contract of the model"
  },
  {
   "property": "C76",
   "status": "partial",
   "theorems": [
    "C76_line",
    "C76_line_only",
    "C76_tables",
    "C76_short_refuted",
    "C76_complement",
    "C76_angles",
    "C76_lunisolar",
    "C76_planets_refuted",
    "C76_files",
    "C76_angles_partial",
    "C76_obliquity_refuted",
    "C76_gast",
    "C76_gast_refuted"
   ],
   "note": "exact real arithmetic except for the single precision of the coefficients as read; sidereal time, terrestrial time and the factor from table units to radians are parameters of the timescale package; numbers with exponents in the tables are taken to be malformed. Refuted: planetary arguments, obliquity, sidereal time, files that end early"
  },
  {
   "property": "C77",
   "status": "partial",
   "theorems": [
    "C77_line",
    "C77_line_only",
    "C77_table",
    "C77_decoded",
    "C77_numbers",
    "C77_long_period",
    "C77_lines",
    "C77_largest",
    "C77_one_millimetre_refuted",
    "C77_amplitudes",
    "C77_m1_refuted"
   ],
   "note": "All lines and files (C77_line, C77_line_only, C77_table), Doodson's notation (C77_decoded), all rows of the shipped tables (C77_numbers), the long-period equilibrium tide against the whole table for all times and latitudes (C77_long_period, C77_lines, C77_largest), amplitudes of the constituents (C77_amplitudes). False as written: all terms above 1 mm are used (C77_one_millimetre_refuted), the amplitude of M1 (C77_m1_refuted)."
  },
  {
   "property": "C78",
   "status": "partial",
   "theorems": [
    "C78_request",
    "C78_refused",
    "C78_node",
    "C78_constants",
    "C78_heights",
    "C78_returns",
    "C78_last_column_refuted",
    "C78_outside",
    "C78_points_refuted",
    "C78_series_node",
    "C78_series_heights",
    "C78_atlas_node",
    "C78_atlas_heights",
    "C78_directory",
    "C78_options"
   ],
   "note": "Composition of the models of extraction (C68, C69, C71) with the prediction of a request (C46): at nodes and within cells the heights are those of the file constants; C78_constants without the assumption that nodes have all constants or none. Bilinear interpolation; splines go through C78_request with the extracted constants. Refuted as stated: C78_last_column_refuted (a point on the last column of nodes makes the request raise), C78_points_refuted (a point east of a regional model masks all points of the request)."
  },
  {
   "property": "C79",
   "status": "partial",
   "theorems": [
    "C79_round_trip",
    "C79_geometry",
    "C79_columns",
    "C79_no_reference_refuted",
    "C79_no_geometry_refuted",
    "C79_coordinates_refuted",
    "C79_index_refuted",
    "C79_refused"
   ],
   "note": "Proved in full under the stated hypotheses (C79_round_trip, C79_geometry, C79_columns, C79_refused). Refuted: without a reference system (C79_no_reference_refuted, C79_no_geometry_refuted), with two pairs of coordinates (C79_coordinates_refuted), with the index written (C79_index_refuted). pandas, pyarrow, shapely and osr are contracts."
  },
  {
   "property": "C80",
   "status": "partial",
   "theorems": [
    "C80_exists",
    "C80_found",
    "C80_missing",
    "C80_ignoring_case_partial",
    "C80_prefix_refuted",
    "C80_dot_refuted",
    "C80_special_refuted",
    "C80_from_file",
    "C80_signs",
    "C80_signs_missing",
    "C80_plus_refuted"
   ],
   "note": "The search is characterised for names without special characters other than the dot (C80_found, C80_missing) and for names with signs of repetition after single characters (C80_signs, C80_signs_missing, with the instances of a name as an inductive relation); the claim holds if no other file begins like the name (C80_ignoring_case_partial) and is refuted otherwise (C80_prefix_refuted, C80_dot_refuted, C80_plus_refuted, C80_special_refuted)."
  },
  {
   "property": "C81",
   "status": "proved",
   "theorems": [
    "C81_read",
    "C81_node",
    "C81_heights",
    "C81_returns",
    "C81_outside"
   ],
   "note": "Composition of the readers of OTIS files (C35-C37) with extraction and prediction (C68, C78): the layout of the files is specified byte by byte in OtisFilesSpec, independently of the readers and writers, with the value of single-precision patterns. Bilinear interpolation; limits and depths are finite; exact arithmetic on the stored numbers; the names are legible (C37_fused_refuted shows what happens to others)."
  },
  {
   "property": "C82",
   "status": "partial",
   "theorems": [
    "C82_linear",
    "C82_nearest",
    "C82_outside",
    "C82_returns",
    "C82_unknown",
    "C82_read",
    "C82_atlas_linear",
    "C82_atlas_nearest",
    "C82_atlas_outside",
    "C82_atlas_returns",
    "C82_atlas_unknown",
    "C82_atlas_read",
    "C82_otis_linear",
    "C82_otis_nearest",
    "C82_otis_outside",
    "C82_otis_returns",
    "C82_otis_unknown",
    "C82_otis_read_heights",
    "C82_otis_read_inside",
    "C82_otis_again_linear",
    "C82_otis_again_nearest",
    "C82_otis_zero_refuted",
    "C82_otis_mask_refuted"
   ],
   "note": "Characterised for every point of FES, GOT, ATLAS netCDF and OTIS models on evenly spaced grids; scipy's RegularGridInterpolator is its documented contract. Results equal to numpy's fill value (1e20) are excluded from the statements (unfilled). Refuted for OTIS models: the mask of a constituent is not used (C82_otis_mask_refuted: the number under it is interpolated), and zeros of the water count as 1e20 once the constituents have been read (C82_otis_zero_refuted). C82_otis_read_heights and C82_otis_read_inside prove the equality of both ways where no constant of the water is masked or zero. No cropping, no extrapolation; cubic and other methods of scipy are not modelled."
  },
  {
   "property": "C83",
   "status": "partial",
   "theorems": [
    "C83_spline",
    "C83_linear",
    "C83_cell",
    "C83_node",
    "C83_nearest",
    "C83_default_spline",
    "C83_outside",
    "C83_zero",
    "C83_zero_regular",
    "C83_returns",
    "C83_empty",
    "C83_first_column_refuted",
    "C83_same_spline",
    "C83_same_linear",
    "C83_seam_refuted",
    "C83_edge_refuted"
   ],
   "note": "Characterised for FES and GOT with the spline, bilinear, linear and nearest methods (C83_spline, _cell, _node, _linear, _nearest), in the vocabulary of CropSpec.v; C83_same_spline and C83_same_linear state the equality with the extraction without cropping. Refuted at the seam: between the last column and the first one a cropped FES model has nothing where the whole model has a constant (C83_seam_refuted), a cropped GOT model has the value of its first column (C83_edge_refuted); a model whose first column is the nearest one to the meridian of the cut cannot be cropped (C83_first_column_refuted, ValueError). Extrapolation is C84. Not covered: OTIS and ATLAS models, C83_outside for spacings below 1/200 degree."
  },
  {
   "property": "C84",
   "status": "partial",
   "theorems": [
    "C84_off",
    "C84_off_whole",
    "C84_off_regular",
    "C84_errors",
    "C84_filled",
    "C84_cropped",
    "C84_crop_refuted"
   ],
   "note": "Characterised by comparison with the same request without extrapolation (C84_filled for whole models, C84_cropped for cropped ones), whose constants are those of C69, C82 and C83 (C84_off, _off_whole, _off_regular); C84_errors: the same exceptions. The distance is defined in ShoreSpec.v independently of the code's conversion. Refuted: cropping to the points' own bounds keeps the extrapolated constants (C84_crop_refuted: the nearest valid node can be farther away than the buffer). Among nodes at equal distance the theorem leaves open which one is taken. Spline, linear and nearest need numbers under the mask. Not covered: OTIS and ATLAS models, C84_cropped for spacings below 1/200 degree or models wider than the globe, Cartesian axes."
  },
  {
   "property": "C85",
   "status": "partial",
   "theorems": [
    "C85_errors",
    "C85_off",
    "C85_off_regular",
    "C85_off_returns",
    "C85_filled",
    "C85_returns",
    "C85_velocity_refuted"
   ],
   "note": "Characterised by comparison with the same request without extrapolation (C85_filled), which is the extraction of C68 and C82 constituent by constituent (C85_off, _off_regular, _off_returns); C85_errors: the same exceptions; C85_returns: when it returns. Refuted: velocities are divided by the depth (C85_velocity_refuted: where the depth at the point is masked, the numpy.ma quotient keeps the transport). Among nodes at equal distance the theorem leaves open which one is taken. Spline, linear and nearest need numbers under the mask of the constituent. Not covered: zonal variables of regional models (the depths of their first column, C65), cropped models."
  },
  {
   "property": "C86",
   "status": "partial",
   "theorems": [
    "C86_off",
    "C86_model",
    "C86_zonal_refuted",
    "C86_meridional_refuted",
    "C86_cell",
    "C86_reading",
    "C86_returns",
    "C86_default_refuted",
    "C86_empty",
    "C86_whole"
   ],
   "note": "C86_model: extraction with cropping is extraction (C68, C82, C85) from the model of the rows and columns kept; C86_cell: in terms of the whole model for bilinear interpolation; C86_reading the same for read_constants; C86_off, C86_whole, C86_empty, C86_returns. Refuted for currents: the axes the constituents are cropped with are lowered by half a step in place (C86_zonal_refuted, C86_meridional_refuted: no result where the first column or row kept is less than half a step within the bounds; C86_default_refuted: with the bounds of the points that is so whenever the westernmost point lies in the western half of a cell of heights). Cell by cell only for cropped models that do not go around the globe; spline, linear and nearest through C86_model only. Geographic grids with spacing above 1/250 degree and at most 360 degrees of columns."
  },
  {
   "property": "C87",
   "status": "partial",
   "theorems": [
    "C87_off",
    "C87_off_regular",
    "C87_errors",
    "C87_kept",
    "C87_filled",
    "C87_returns",
    "C87_velocity_refuted"
   ],
   "note": "C87_off and C87_off_regular: without the options extraction is that of C71 and C82; C87_errors, C87_kept: exceptions, depths and names do not change; C87_filled: which points are filled and from which node, for every method; C87_returns. Refuted for velocities: where the depth is masked they are divided by 1e20/100 with bilinear interpolation and by the depth interpolated with zeros on land otherwise (C87_filled, C87_velocity_refuted). Cropping is C88."
  },
  {
   "property": "C88",
   "status": "partial",
   "theorems": [
    "C88_model",
    "C88_cell",
    "C88_spline",
    "C88_nearest",
    "C88_filled",
    "C88_returns",
    "C88_empty",
    "C88_fill_refuted"
   ],
   "note": "C88_model: extraction with cropping is extraction (C71, C82, C87) from the model of the rows and columns kept, where that leaves the longitudes of the points as they are; C88_cell, C88_spline (also method linear), C88_nearest: in terms of the whole model; C88_filled: extrapolated constants come from the nearest wet node that is kept, for every method; C88_returns, C88_empty (C87_off: bounds that are all zero are none; C87_errors and C87_kept hold with cropping too). Refuted for extrapolation: the nearest wet node of the whole model may have been cropped (C88_fill_refuted). Grids with spacing above 1/250 degree and at most 360 degrees of columns; cells of the seam of a model around the globe that is kept whole through C88_model only."
  },
  {
   "property": "C89",
   "status": "partial",
   "theorems": [
    "C89_reading_off",
    "C89_interpolation_off",
    "C89_read",
    "C89_cropped",
    "C89_errors",
    "C89_filled",
    "C89_spline",
    "C89_empty",
    "C89_single",
    "C89_default_refuted"
   ],
   "note": "C89_reading_off, C89_interpolation_off: without the options reading and interpolation are those of C69 and C82; C89_read: reading and interpolating is extraction, with extrapolation; C89_cropped: also for a model cropped when it is read, at the points in the longitudes of the columns kept; C89_spline: that in terms of the whole model; C89_filled: which points are filled and from which node; C89_errors, C89_empty. Differences: a single column kept is an IndexError when the model is read (C89_single); the default buffer is zero when a model is read and four columns when it is extracted (C89_default_refuted). Grids with spacing above 1/200 degree and at most 360 degrees of columns when cropped; all files of a model have the same grid; splines and linear interpolation for constants that are numbers also under the mask."
  },
  {
   "property": "C90",
   "status": "partial",
   "theorems": [
    "C90_reading_off",
    "C90_interpolation_off",
    "C90_read",
    "C90_model",
    "C90_cropped",
    "C90_errors",
    "C90_left",
    "C90_filled",
    "C90_filled_cropped",
    "C90_empty",
    "C90_single",
    "C90_default_refuted"
   ],
   "note": "C90_reading_off, C90_interpolation_off: without the options reading and interpolation are those of C71 and C82; C90_read: reading and interpolating is extraction, with extrapolation; C90_model: reading with cropping is reading the model of the rows and columns within the bounds, for any margin; C90_cropped: interpolating it is extraction with cropping, at the points in the longitudes of the columns kept; C90_filled, C90_filled_cropped: which points are filled and from which node; C90_errors, C90_left, C90_empty. Differences: a single column kept is an IndexError when the model is read (C90_single); the default buffer is zero when a model is read and four columns when it is extracted (C90_default_refuted). Grids with spacing above 1/250 degree and at most 360 degrees of columns when cropped; splines and linear interpolation for constants that are numbers also under the mask; points in the frames of C71."
  },
  {
   "property": "C91",
   "status": "partial",
   "theorems": [
    "C91_errors",
    "C91_off",
    "C91_off_regular",
    "C91_filled",
    "C91_read_heights",
    "C91_read_inside",
    "C91_returns",
    "C91_zero_refuted",
    "C91_nan",
    "C91_edge_refuted"
   ],
   "note": "C91_errors: the same exceptions; C91_off, C91_off_regular: without the option interpolation is that of C68 and C82; C91_filled: which points are filled and from which node, compared with the result without extrapolation; C91_read_heights, C91_read_inside: the same as extraction (C85) for heights, and for all variables at points within the nodes of the variable; C91_returns: when it returns. Refuted: zero constants of water count as 1e20 for the regular grid methods (C91_zero_refuted); bilinear velocities where the depth is not a number are lost (C91_nan, C91_edge_refuted), so C91_read_inside excludes bilinear velocities. Splines: masked constants only on land; regular grid methods: constants of water that are not masked and not zero; numbers under the mask."
  },
  {
   "property": "C92",
   "status": "partial",
   "theorems": [
    "C92_found",
    "C92_get",
    "C92_held",
    "C92_transform",
    "C92_convert",
    "C92_round_trip",
    "C92_dictionary",
    "C92_describe",
    "C92_name_refuted",
    "C92_forward_refuted"
   ],
   "note": "C92_found: how a description is read; C92_get: all or nothing; C92_held: system, direction and name after any sequence of calls, by induction over the calls; C92_transform, C92_convert: every result and exception; C92_round_trip; C92_dictionary, C92_describe: exceptions that escape. Refuted: a convert that fails leaves the request as name beside the former system (C92_name_refuted); transform without direction goes backwards after a convert backwards (C92_forward_refuted). pyproj and int() of a string are parameters."
  },
  {
   "property": "C93",
   "status": "partial",
   "theorems": [
    "C93_atlas",
    "C93_atlas_west_refuted",
    "C93_atlas_greenwich_refuted",
    "C93_atlas_file",
    "C93_grid",
    "C93_empty",
    "C93_name",
    "C93_distinct",
    "C93_base",
    "C93_constituents_refuted",
    "C93_forever",
    "C93_mask_refuted"
   ],
   "note": "C93_grid: from the bytes of the file to the bytes of the reduced file and back, where the new limits are exact in single precision; C93_empty: the exceptions; C93_name, C93_distinct, C93_base: the name; C93_forever: no end where nothing can be created. Refuted: the mask is lost (C93_mask_refuted, from C35) and no constituents are ever written (C93_constituents_refuted); open boundary nodes keep the indices of the whole grid and western longitudes come back 360 degrees higher (C93_grid). ATLAS-compact grids: C93_atlas (the parts of the combined depths and mask of C66, with the outer edges of their cells), C93_atlas_file (the bytes of the file, read back); refuted: boxes in negative longitudes are an IndexError (C93_atlas_west_refuted) and of boxes across Greenwich only the east is kept (C93_atlas_greenwich_refuted)."
  },
  {
   "property": "C94",
   "status": "partial",
   "theorems": [
    "C94_projection",
    "C94_long_period",
    "C94_load_pole",
    "C94_ocean_pole",
    "C94_solid_earth",
    "C94_elevations",
    "C94_currents",
    "C94_lengths",
    "C94_types_refuted",
    "C94_solid_earth_grid_refuted",
    "C94_csv_lines",
    "C94_csv_elevations",
    "C94_csv_refuted",
    "C94_formats",
    "C94_columns_refuted",
    "C94_unit_refuted"
   ],
   "note": "C94_elevations, C94_currents, C94_long_period, C94_load_pole, C94_ocean_pole, C94_solid_earth: agreement with the library for every type; C94_projection: the system used and every exception; C94_csv_lines, C94_csv_elevations: the lines of a track; C94_lengths, C94_formats: exceptions. Refuted: grids of solid earth tides of more than one point (C94_solid_earth_grid_refuted), text files with the default names of columns (C94_columns_refuted), grids and stations in text files (C94_csv_refuted), the spelling of types (C94_types_refuted), the unit given for times given as argument (C94_unit_refuted). Readers, pyproj and timescale are parameters; of the writers only the shapes required by to_ascii are modelled; exact real arithmetic without NaN."
  },
  {
   "property": "C95",
   "status": "partial",
   "theorems": [
    "C95_time_refuted",
    "C95_time_renamed",
    "C95_time_class",
    "C95_time_attribute",
    "C95_eop",
    "C95_wrappers",
    "C95_compute_corrections",
    "C95_same_choice",
    "C95_package"
   ],
   "note": "C95_eop, C95_wrappers, C95_compute_corrections, C95_same_choice, C95_package: the wrappers and the names of the package. Refuted: every function of pyTMD/time.py is an AttributeError, as the class defined at the end of the module takes the name of the package its functions look in (C95_time_refuted, where the class timescale.time.Timescale has no attribute named time); under any other name of the class all of them are right (C95_time_renamed). The contents and behaviour of other packages are parameters; case conversion is ASCII."
  },
  {
   "property": "C96",
   "status": "partial",
   "theorems": [
    "C96_wrap",
    "C96_marker",
    "C96_typed",
    "C96_center_refuted",
    "C96_cursor",
    "C96_init",
    "C96_default_refuted"
   ],
   "note": "C96_wrap, C96_marker, C96_typed, C96_cursor, C96_init. Refuted: the map goes back to the marker when it is moved, and stays where it is when the marker is moved (C96_center_refuted); without the argument marker_control the map is a KeyError (C96_default_refuted). The widgets are modelled by the values read and assigned, with notification on change as in traitlets; exact real arithmetic, the sign of zero is not modelled."
  },
  {
   "property": "C97",
   "status": "partial",
   "theorems": [
    "C97_names",
    "C97_inside",
    "C97_inside_refuted",
    "C97_got",
    "C97_got_ends",
    "C97_hidden_refuted",
    "C97_gzip_refuted",
    "C97_interrupted_refuted",
    "C97_got_table",
    "C97_plan",
    "C97_fes_again",
    "C97_fes",
    "C97_fes_only",
    "C97_currents_refuted",
    "C97_fes2022",
    "C97_currents2022_refuted",
    "C97_fes_interrupted_refuted",
    "C97_fes2012_refuted",
    "C97_fes2022_database",
    "C97_fes2014_database"
   ],
   "note": "C97_names, C97_inside, C97_got, C97_got_ends, C97_got_table, C97_plan, C97_fes, C97_fes_only, C97_fes_again, C97_fes2022. Refuted: the currents of FES2014 are never downloaded and end the run with an exception (C97_currents_refuted), those of FES2022 are never asked for (C97_currents2022_refuted); a member name can reach any local file (C97_inside_refuted); files with an underscore as second character are passed over (C97_hidden_refuted); with GZIP all files are compressed, also those whose name does not say so (C97_gzip_refuted); what was written of an interrupted download counts as the file from then on (C97_interrupted_refuted, C97_fes_interrupted_refuted). The hosts, tar, gzip and lzma are parameters; directories, permissions and the log are not modelled. C97_fes2014_database, C97_fes2022_database: FES2014 and FES2022 are where the database looks for them; C97_fes2012_refuted: FES2012 is not, as its directory is flattened."
  },
  {
   "property": "C98",
   "status": "partial",
   "theorems": [
    "C98_listing",
    "C98_base",
    "C98_ftp",
    "C98_http",
    "C98_http_refuted",
    "C98_cddis",
    "C98_iers",
    "C98_uhslc",
    "C98_copy",
    "C98_from_http",
    "C98_from_ftp",
    "C98_hash",
    "C98_no_hash",
    "C98_kernel_refuted",
    "C98_kernel",
    "C98_box",
    "C98_timegm",
    "C98_zone_refuted",
    "C98_machine_refuted",
    "C98_unix_time"
   ],
   "note": "C98_listing, C98_base, C98_ftp, C98_http, C98_cddis, C98_iers, C98_uhslc, C98_copy, C98_from_http, C98_from_ftp, C98_hash, C98_no_hash, C98_kernel, C98_box, C98_timegm, C98_unix_time. Refuted: a row of a page with a name and no time shifts the times of all rows that follow (C98_http_refuted); the offset of a time read by its format is dropped (C98_zone_refuted), as in verify_box_tpxo; a time without offset read by dateutil depends on the machine (C98_machine_refuted); from_jpl_ssd with a local file stores the default kernel in it under any name (C98_kernel_refuted). The hosts' answers, hash functions and parsers of dates are parameters."
  },
  {
   "property": "C99",
   "status": "partial",
   "theorems": [
    "C99_arctic",
    "C99_arctic_ends",
    "C99_arctic_again",
    "C99_directory_refuted",
    "C99_usap_refuted",
    "C99_database"
   ],
   "note": "C99_arctic, C99_arctic_ends, C99_arctic_again, C99_database. Refuted: a directory of the package whose name has a word of the pattern ends the run with an exception (C99_directory_refuted); usap_cats_tides returns before its download and changes no file (C99_usap_refuted). The package is a parameter; zipfile.extract is modelled by its documented treatment of names."
  },
  {
   "property": "C100",
   "status": "partial",
   "theorems": [
    "C100_login",
    "C100_asked_refuted",
    "C100_stored",
    "C100_retry_refuted",
    "C100_given",
    "C100_given_refuted",
    "C100_environment_refuted",
    "C100_tokens",
    "C100_redirect_refuted",
    "C100_opener",
    "C100_retries",
    "C100_token_login",
    "C100_cddis",
    "C100_cddis_refuted"
   ],
   "note": "C100_login, C100_stored, C100_given, C100_retries, C100_opener, C100_tokens, C100_token_login, C100_cddis. Refuted: where the password is stored or given, a failing login is an UnboundLocalError and not tried again (C100_retry_refuted); a pair asked for after the last retry is not tried, and the prompt keeps the first user name (C100_asked_refuted); credentials given are not used if the .netrc file has an entry (C100_given_refuted); the functions on tokens do not use the environment (C100_environment_refuted); redirects are followed whatever is asked (C100_redirect_refuted). A request to CDDIS without credentials has the header \"None:None\" (C100_cddis_refuted). The host is a set of accepted pairs."
  },
  {
   "property": "C101",
   "status": "partial",
   "theorems": [
    "C101_copy",
    "C101_crash",
    "C101_errors",
    "C101_replaced_refuted",
    "C101_linked",
    "C101_bytes"
   ],
   "note": "C101_copy, C101_crash, C101_errors, C101_bytes, C101_linked (a replaced file is replaced under all of its names). Refuted: a file that is replaced is emptied first, and has neither its old nor its new bytes where the copy is interrupted then (C101_replaced_refuted). Special files are not modelled, the calls of shutil are from the standard library."
  }
 ]
}