{
 "claims": [
  {
   "property": "C01",
   "status": "proved",
   "theorems": [
    "C01_round_trip_restores_dataset",
    "C01_rotation_keeps_dataset_admissible",
    "C01_rotation_succeeds"
   ],
   "note": ""
  },
  {
   "property": "C02",
   "status": "proved",
   "theorems": [
    "C02_route_does_not_matter"
   ],
   "note": ""
  },
  {
   "property": "C03",
   "status": "proved",
   "theorems": [
    "C03_speed_and_error_velocity_kept",
    "C03_principal_keeps_vertical",
    "C03_other_variables_untouched"
   ],
   "note": ""
  },
  {
   "property": "C04",
   "status": "proved",
   "theorems": [
    "C04_terminates",
    "C04_reaches_requested_frame",
    "C04_labels_of_requested_frame",
    "C04_unknown_rejected_unmodified",
    "C04_ship_to_inst_or_beam_is_an_error",
    "C04_ship_to_earth_as_from_inst"
   ],
   "note": ""
  },
  {
   "property": "C05",
   "status": "proved",
   "theorems": [
    "C05_declination_replaces",
    "C05_same_declination_twice",
    "C05_original_recovered"
   ],
   "note": ""
  },
  {
   "property": "C06",
   "status": "proved",
   "theorems": [
    "C06_earth_velocity_turns_clockwise",
    "C06_other_frames_unchanged",
    "C06_attributes",
    "C06_commutes_with_rotate2"
   ],
   "note": ""
  },
  {
   "property": "C07",
   "status": "proved",
   "theorems": [
    "C07_principal_data_unaffected",
    "C07_principal_frame_same_before_and_after"
   ],
   "note": ""
  },
  {
   "property": "C08",
   "status": "proved",
   "theorems": [
    "C08_same_in_every_frame",
    "C08_succeeds_once",
    "C08_inst_frame_effect",
    "C08_only_vector"
   ],
   "note": ""
  },
  {
   "property": "C09",
   "status": "partial",
   "theorems": [
    "C09_accepted_matrix_not_reversible_refuted",
    "C09_orthonormal_accepted_is_proper_partial",
    "C09_reversible_only_if_orthonormal"
   ],
   "note": "The full claim is false: the check only tests the determinant, so a shear of determinant 1 is accepted and beam->inst->beam changes the velocity (C09_accepted_matrix_not_reversible_refuted). Proved instead: an orthonormal matrix that is accepted is a proper rotation, for which C01/C08 give reversibility, and reversibility implies orthonormality."
  },
  {
   "property": "C10",
   "status": "proved",
   "theorems": [
    "C10_euler2orient_proper",
    "C10_nortek_proper",
    "C10_trdi_proper",
    "C10_euler2orient_and_nortek_agree",
    "C10_nortek_mounted_downwards",
    "C10_axes_of_euler_angles",
    "C10_axes_of_trdi_angles"
   ],
   "note": ""
  },
  {
   "property": "C11",
   "status": "proved",
   "theorems": [
    "C11_angles_recovered",
    "C11_angle_ranges",
    "C11_matrix_recovered"
   ],
   "note": ""
  },
  {
   "property": "C12",
   "status": "proved",
   "theorems": [
    "C12_only_zero_rejected",
    "C12_proper",
    "C12_sign_and_scale",
    "C12_identity",
    "C12_is_conjugation"
   ],
   "note": ""
  },
  {
   "property": "C13",
   "status": "proved",
   "theorems": [
    "C13_homogeneous_flow_recovered",
    "C13_invertible",
    "C13_error_ignores_homogeneous_part",
    "C13_error_zero_iff_homogeneous"
   ],
   "note": ""
  },
  {
   "property": "C14",
   "status": "proved",
   "theorems": [
    "C14_agreeing_verticals_rotate_as_3d",
    "C14_invertible_iff_z_not_horizontal",
    "C14_horizontal_z_refused"
   ],
   "note": ""
  },
  {
   "property": "C15",
   "status": "proved",
   "theorems": [
    "C15_reversal_invariant",
    "C15_bidirectional_flow_returns_axis",
    "C15_direction_of_mean",
    "C15_turns_with_the_flow_tidal",
    "C15_turns_with_the_flow",
    "C15_nan_only_without_valid_samples"
   ],
   "note": ""
  },
  {
   "property": "C16",
   "status": "partial",
   "theorems": [
    "C16_zero_iff_level",
    "C16_range",
    "C16_even_and_symmetric",
    "C16_at_least_pitch_and_roll",
    "C16_is_inclination_of_trdi_matrix",
    "C16_is_inclination_of_nortek_matrix_partial",
    "C16_is_inclination_of_nortek_matrix_refuted"
   ],
   "note": "All but the last clause proved; the last clause (tilt equals the inclination of the z-axis in the orientation matrix) holds for the TRDI matrix for all angles, but for the matrix of euler2orient/Nortek only if pitch or roll is 0: false at pitch = roll = 45 (refuted)."
  },
  {
   "property": "C17",
   "status": "proved",
   "theorems": [
    "C17_involution",
    "C17_exact_involution",
    "C17_ranges",
    "C17_same_direction"
   ],
   "note": ""
  },
  {
   "property": "C18",
   "status": "partial",
   "theorems": [
    "C18_epoch2dt64_same_instant_partial",
    "C18_epoch2dt64_refuted",
    "C18_epoch2dt64_one_second_late"
   ],
   "note": "True from 1970 on and for whole seconds before; false for fractional times before 1970 (one second late), refuted with a witness."
  },
  {
   "property": "C19",
   "status": "proved",
   "theorems": [
    "C19_epoch2dt64_dt642epoch",
    "C19_dt642epoch_epoch2dt64",
    "C19_epoch2dt64_monotone",
    "C19_dt642epoch_monotone",
    "C19_date_roundtrip",
    "C19_date_offset"
   ],
   "note": ""
  },
  {
   "property": "C20",
   "status": "proved",
   "theorems": [
    "C20_matlab_roundtrip",
    "C20_matlab_strictly_increasing",
    "C20_matlab_one_per_day"
   ],
   "note": ""
  },
  {
   "property": "C21",
   "status": "proved",
   "theorems": [
    "C21_fullyear_2digit",
    "C21_fullyear_injective",
    "C21_fullyear_four_digit"
   ],
   "note": ""
  },
  {
   "property": "C22",
   "status": "proved",
   "theorems": [
    "C22_fill_time_gaps_raises",
    "C22_fill_time_gaps_complete",
    "C22_fill_time_gaps_inner",
    "C22_fill_time_gaps_head",
    "C22_fill_time_gaps_tail",
    "C22_fill_time_gaps_increasing"
   ],
   "note": ""
  },
  {
   "property": "C23",
   "status": "proved",
   "theorems": [
    "C23_fillgaps_length",
    "C23_fillgaps_keeps_valid",
    "C23_fillgaps_inner_gap",
    "C23_fillgaps_ends_without_extrap",
    "C23_fillgaps_head_extrap",
    "C23_fillgaps_tail_extrap",
    "C23_fillgaps_all_missing"
   ],
   "note": ""
  },
  {
   "property": "C24",
   "status": "proved",
   "theorems": [
    "C24_interpgaps_length",
    "C24_interpgaps_keeps_valid",
    "C24_interpgaps_same_selection",
    "C24_interpgaps_linear_in_time",
    "C24_interpgaps_between",
    "C24_interpgaps_even_time"
   ],
   "note": ""
  },
  {
   "property": "C25",
   "status": "partial",
   "theorems": [
    "C25_group_maximal_runs_partial",
    "C25_group_wrong_otherwise",
    "C25_group_refuted"
   ],
   "note": "Exact: the result lists the maximal runs iff the first sample is False or there is no later run (C25_group_maximal_runs_partial and its converse C25_group_wrong_otherwise); otherwise false, refuted with a witness."
  },
  {
   "property": "C26",
   "status": "proved",
   "theorems": [
    "C26_slices_exactly_once_in_order",
    "C26_row_major_irreflexive",
    "C26_raises"
   ],
   "note": ""
  },
  {
   "property": "C27",
   "status": "proved",
   "theorems": [
    "C27_detrend_leaves_residual",
    "C27_residual_unique",
    "C27_line_removed_is_least_squares",
    "C27_affine_input_gives_zero",
    "C27_idempotent",
    "C27_linear"
   ],
   "note": "For series without missing samples (at least two); see C84 for missing samples."
  },
  {
   "property": "C28",
   "status": "proved",
   "theorems": [
    "C28_reshape_consecutive_bins",
    "C28_reshape_too_short"
   ],
   "note": ""
  },
  {
   "property": "C29",
   "status": "proved",
   "theorems": [
    "C29_reshape_padding"
   ],
   "note": ""
  },
  {
   "property": "C30",
   "status": "proved",
   "theorems": [
    "C30_reshape_fractional",
    "C30_reshape_fractional_raises"
   ],
   "note": ""
  },
  {
   "property": "C31",
   "status": "proved",
   "theorems": [
    "C31_bin_mean",
    "C31_mean_between",
    "C31_demean",
    "C31_bin_var",
    "C31_std_squared_is_var"
   ],
   "note": ""
  },
  {
   "property": "C32",
   "status": "partial",
   "theorems": [
    "C32_success_attributes_partial",
    "C32_existing_attributes_kept",
    "C32_raises_exactly_on_conflict",
    "C32_binner_attribute_lost_refuted"
   ],
   "note": "True except that an attribute n_bin, n_fft or description already present in the input wins over the binner's own (refuted with a witness, data binned twice). Attribute values are compared by an arbitrary decidable equality; array-valued attributes are outside the model."
  },
  {
   "property": "C33",
   "status": "proved",
   "theorems": [
    "C33_frequencies",
    "C33_positive_and_increasing",
    "C33_ends_at_nyquist",
    "C33_one_frequency_per_estimate"
   ],
   "note": ""
  },
  {
   "property": "C34",
   "status": "partial",
   "theorems": [
    "C34_default_step_partial",
    "C34_explicit_step",
    "C34_default_step_bias",
    "C34_divisor_refuted",
    "C34_nfft_2_raises"
   ],
   "note": "Containment, overlap and the exact divisor are proved; the divisor equals the number of segments with an explicit step, but with the default step only under the stated condition: 9 samples with nfft 4 sum 6 segments and divide by 4 (refuted), the spectrum is too large by that factor (C34_default_step_bias). nfft = 2 always raises."
  },
  {
   "property": "C35",
   "status": "proved",
   "theorems": [
    "C35_nonnegative",
    "C35_quadratic",
    "C35_trend_ignored",
    "C35_affine_is_zero"
   ],
   "note": ""
  },
  {
   "property": "C36",
   "status": "partial",
   "theorems": [
    "C36_nonnegative",
    "C36_zero_noise",
    "C36_lowered_by_noise_level",
    "C36_below_noise_level",
    "C36_only_lowers_refuted"
   ],
   "note": "Non-negativity, zero noise and exact lowering above the noise level are proved; \"only lowers\" is false: values below the noise level are replaced by a floor that can exceed them (refuted)."
  },
  {
   "property": "C37",
   "status": "partial",
   "theorems": [
    "C37_between_0_and_1_partial",
    "C37_bounds",
    "C37_proportional",
    "C37_rescaling",
    "C37_at_most_1_refuted"
   ],
   "note": "Bounds (0 <= x <= (segments/ensembles)^2), proportional signals and rescaling proved for all series; the bound 1 only if the two numbers agree, otherwise a signal can have coherence 2.25 with itself (refuted)."
  },
  {
   "property": "C38",
   "status": "partial",
   "theorems": [
    "C38_with_itself",
    "C38_with_itself_default_step",
    "C38_swap_conjugates",
    "C38_depends_on_first_segment_only",
    "C38_opposite_refuted"
   ],
   "note": "1 for a signal with itself (explicit step) and conjugation under swapping are proved; a signal and its negative give 0 instead of -1 (refuted), because after the first segment both spectra are taken from the first signal (C38_depends_on_first_segment_only)."
  },
  {
   "property": "C39",
   "status": "proved",
   "theorems": [
    "C39_speed",
    "C39_direction_range",
    "C39_earth_compass_direction",
    "C39_clockwise_from_first_axis"
   ],
   "note": "valid samples; floats idealised"
  },
  {
   "property": "C40",
   "status": "partial",
   "theorems": [
    "C40_value_partial",
    "C40_mask_before_return",
    "C40_threshold_ignored",
    "C40_threshold_refuted"
   ],
   "note": "`calc_ti` returns `ti.data` of a masked array, so the threshold has no effect on the returned values; the values are sqrt(var-noise^2)/mean"
  },
  {
   "property": "C41",
   "status": "partial",
   "theorems": [
    "C41_tke",
    "C41_stress",
    "C41_stress_components",
    "C41_nonnegative_and_cauchy_schwarz",
    "C41_total",
    "C41_tke_trend",
    "C41_stress_trend",
    "C41_missing_samples_refuted"
   ],
   "note": "holds for complete bins; with missing samples stress and tke use different sample sets and Cauchy-Schwarz fails (witness)"
  },
  {
   "property": "C42",
   "status": "partial",
   "theorems": [
    "C42_recovers_hz",
    "C42_recovers_rad_partial",
    "C42_nonnegative",
    "C42_scales",
    "C42_empty_range",
    "C42_rad_noise_refuted"
   ],
   "note": "per rad/s, a given noise is subtracted as noise^2/(fs/2) with fs in Hz, which is not its density per rad/s (witness); recovered per Hz with noise and per rad/s without"
  },
  {
   "property": "C43",
   "status": "partial",
   "theorems": [
    "C43_square_law_partial",
    "C43_two_thirds_law_refuted"
   ],
   "note": "code fits against (r^2)/3 instead of r^(2/3)"
  },
  {
   "property": "C44",
   "status": "partial",
   "theorems": [
    "C44_signature_4beam_partial",
    "C44_trdi_4beam_partial",
    "C44_5beam_partial",
    "C44_trdi_vw_refuted",
    "C44_vv_refuted",
    "C44_ww_refuted"
   ],
   "note": "Signature u'w', v'w' and TRDI u'w' are exact; TRDI v'w' has the wrong sign, v'v' mixes u'u' in and w'w' is not the vertical variance (refuted). Five beams here for zero tilt; pitch in C115."
  },
  {
   "property": "C45",
   "status": "partial",
   "theorems": [
    "C45_exact_for_lines_partial",
    "C45_first_difference_any_spacing",
    "C45_sizes",
    "C45_down_raises",
    "C45_down_refuted"
   ],
   "note": "Slopes exact for all styles; calc_dudz of a down-looking instrument always raises (refuted)."
  },
  {
   "property": "C46",
   "status": "proved",
   "theorems": [
    "C46_range_limit",
    "C46_spike_thresh",
    "C46_val_exceeds_thresh"
   ],
   "note": "Also covers val_exceeds_thresh."
  },
  {
   "property": "C47",
   "status": "partial",
   "theorems": [
    "C47_unmasked_kept",
    "C47_masked_filled_partial",
    "C47_last_filled_partial",
    "C47_last_refuted",
    "C47_linear"
   ],
   "note": "Every masked sample but an isolated last one is handed to the interpolator (refuted for that one). xarray's interpolation is a parameter; its linear method is modelled from its documentation."
  },
  {
   "property": "C48",
   "status": "proved",
   "theorems": [
    "C48_ensemble_mean",
    "C48_window_too_long"
   ],
   "note": "Complete for whole-number windows; a window longer than the data raises."
  },
  {
   "property": "C49",
   "status": "partial",
   "theorems": [
    "C49_beam_frame",
    "C49_other_frame_partial",
    "C49_good_beams_refuted"
   ],
   "note": "Exact in beam coordinates; in another frame one low beam removes the whole velocity (refuted for the other beams)."
  },
  {
   "property": "C50",
   "status": "partial",
   "theorems": [
    "C50_beyond_surface",
    "C50_echo",
    "C50_unknown_depth",
    "C50_user_angle_refuted",
    "C50_other_range_refuted"
   ],
   "note": "Exact with the angle of the dataset; an angle passed by the caller is taken in radians and a variable on a range of another size raises (refuted)."
  },
  {
   "property": "C51",
   "status": "proved",
   "theorems": [
    "C51_additive",
    "C51_moves_ranges_only"
   ],
   "note": ""
  },
  {
   "property": "C52",
   "status": "partial",
   "theorems": [
    "C52_second_estimate_partial",
    "C52_wraparound_refuted",
    "C52_few_pings_refuted",
    "C52_later_pings_refuted",
    "C52_strong_echo_refuted"
   ],
   "note": "The second estimate is right up to 256 cells. Refuted: more cells, fewer pings than cells (raises), pings after the first n_cells (not examined), strong echoes beyond the first cells (always discarded)."
  },
  {
   "property": "C53",
   "status": "proved",
   "theorems": [
    "C53_increasing",
    "C53_zero_and_offset"
   ],
   "note": "For temperatures up to 60 degC and nonnegative salinity."
  },
  {
   "property": "C54",
   "status": "proved",
   "theorems": [
    "C54_cross_product",
    "C54_in_earth_axes",
    "C54_same_in_earth",
    "C54_perpendicular",
    "C54_zero_at_imu",
    "C54_bilinear"
   ],
   "note": "Lever arm measured from the IMU of a Vector, the only make the code knows."
  },
  {
   "property": "C55",
   "status": "proved",
   "theorems": [
    "C55_adds_head_motion",
    "C55_raw_velocity_kept",
    "C55_both_settings_agree",
    "C55_only_once",
    "C55_rejects",
    "C55_head_rotation"
   ],
   "note": "The filters are an arbitrary function that keeps the length; exact arithmetic; 'earth' or 'inst' results."
  },
  {
   "property": "C56",
   "status": "partial",
   "theorems": [
    "C56_irregular_rejected_partial",
    "C56_regular_accepted",
    "C56_declared_interval_ignored",
    "C56_wrong_interval_refuted",
    "C56_irregular_refuted"
   ],
   "note": "The test on the mean can never be true (refuted), and intervals are truncated to whole seconds, so a spread between two and three seconds passes (refuted). Spreads of three seconds or more are rejected."
  },
  {
   "property": "C57",
   "status": "proved",
   "theorems": [
    "C57_base_name",
    "C57_right_extension_kept",
    "C57_wrong_extension_refused",
    "C57_extension_appended",
    "C57_idempotent"
   ],
   "note": "Full statement."
  },
  {
   "property": "C58",
   "status": "proved",
   "theorems": [
    "C58_first_40_bytes",
    "C58_magic_bytes",
    "C58_dispatch"
   ],
   "note": "Full statement."
  },
  {
   "property": "C59",
   "status": "partial",
   "theorems": [
    "C59_removed_from_the_end_partial",
    "C59_trailing_removed_partial",
    "C59_interior_refuted",
    "C59_first_component_refuted",
    "C59_matrix_refuted"
   ],
   "note": "Partial: proved how many samples go and that they go from the end; exact when only trailing samples are missing in the last component. Refuted: an interior missing sample removes a valid last sample, a missing first component is not noticed, a 3x3 matrix is cut when there are three samples."
  },
  {
   "property": "C60",
   "status": "partial",
   "theorems": [
    "C60_true_partial",
    "C60_no_extension",
    "C60_false",
    "C60_named_file_ignored",
    "C60_named_file_refuted"
   ],
   "note": "Partial: userdata=True and False as documented; refuted: a file name supplied by the caller is ignored (base.py:44 tests truthiness first)."
  },
  {
   "property": "C61",
   "status": "partial",
   "theorems": [
    "C61_round_trip_partial",
    "C61_name_clash_refuted",
    "C61_one_letter_refuted",
    "C61_user_encoding_refuted"
   ],
   "note": "Partial: round trip for datasets without name clashes and without one-letter names among several complex variables; refuted in those cases and for the user's encoding, which is overwritten."
  },
  {
   "property": "C62",
   "status": "proved",
   "theorems": [
    "C62_digits",
    "C62_injective",
    "C62_at_most_99"
   ],
   "note": ""
  },
  {
   "property": "C63",
   "status": "partial",
   "theorems": [
    "C63_refused_value_partial",
    "C63_intact_refused_refuted",
    "C63_altered_accepted_refuted"
   ],
   "note": "False of the code: the test refuses the block only when the stored value equals the sum without modulus. Proved: exactly which value is refused; refuted: intact blocks with a small sum are refused, and every altered block with a larger sum is accepted."
  },
  {
   "property": "C64",
   "status": "partial",
   "theorems": [
    "C64_little_endian_partial",
    "C64_big_endian_partial",
    "C64_big_endian_refuted"
   ],
   "note": "Little-endian files are recognised exactly by their header; big-endian files are refused because the second test reads the following four bytes."
  },
  {
   "property": "C65",
   "status": "proved",
   "theorems": [
    "C65_next_start",
    "C65_unknown_block"
   ],
   "note": ""
  },
  {
   "property": "C66",
   "status": "proved",
   "theorems": [
    "C66_rotation",
    "C66_axes",
    "C66_lengths_and_handedness",
    "C66_orientmat_orthonormal",
    "C66_orientmat_proper",
    "C66_orientmat_consistent",
    "C66_units"
   ],
   "note": ""
  },
  {
   "property": "C67",
   "status": "partial",
   "theorems": [
    "C67_first_n_partial",
    "C67_range_ignores_start_partial",
    "C67_range_refuted",
    "C67_none_refuted"
   ],
   "note": "nens=n proved for Vector files of whole blocks with 0 < n <= number of samples; nens=(start, stop) returns the samples from 0 on (refuted), nens=0 raises."
  },
  {
   "property": "C68",
   "status": "partial",
   "theorems": [
    "C68_burst_mode_refuted",
    "C68_other_fields_partial"
   ],
   "note": "burst_mode is always True; the neighbouring fields follow their bits."
  },
  {
   "property": "C69",
   "status": "partial",
   "theorems": [
    "C69_values",
    "C69_every_block",
    "C69_bytes_consumed",
    "C69_shapes",
    "C69_checksum",
    "C69_files_not_verified_refuted",
    "C69_empty_field_refuted"
   ],
   "note": "Proved with cs=True; the reader of files never asks for the check (refutation), and a field with an empty dimension shifts everything after it (refutation)."
  },
  {
   "property": "C70",
   "status": "proved",
   "theorems": [
    "C70_bits",
    "C70_packed",
    "C70_single_bit",
    "C70_beams_word",
    "C70_configuration_bits"
   ],
   "note": "All bits, all widths; beams word for the ids that hold it; configuration bits."
  },
  {
   "property": "C71",
   "status": "partial",
   "theorems": [
    "C71_numbers",
    "C71_counter",
    "C71_positions_partial",
    "C71_long_record_refuted",
    "C71_number_zero_refuted"
   ],
   "note": "Numbers and counter: every file. Positions: files of records shorter than 32768 bytes; a longer record makes the indexing jump back (refutation); the numbers 0 and 1 share a counter (refutation)."
  },
  {
   "property": "C72",
   "status": "proved",
   "theorems": [
    "C72_common_value",
    "C72_excluded_values",
    "C72_occurs",
    "C72_most_frequent",
    "C72_some_value"
   ],
   "note": "All vectors, all excluded values."
  },
  {
   "property": "C73",
   "status": "partial",
   "theorems": [
    "C73_halfway_partial",
    "C73_both_variables",
    "C73_one_variable",
    "C73_average",
    "C73_average_one",
    "C73_heading_range_refuted"
   ],
   "note": "Halfway on the shorter arc proved for every pair that is not opposite, and the result lies in (-180, 180]. The claim that it stays in the 0-360 range is refuted: two equal headings of 270 give -90. The name of the suffix says that opposite headings (no halfway direction) are left out."
  },
  {
   "property": "C74",
   "status": "partial",
   "theorems": [
    "C74_small_numbers_partial",
    "C74_number_refuted",
    "C74_twice_refuted"
   ],
   "note": "Right up to 65535; above, each 65536 counts as 65535, so that two ensembles get the same number (refutation)."
  },
  {
   "property": "C75",
   "status": "partial",
   "theorems": [
    "C75_bottom_range",
    "C75_navigation",
    "C75_position_range",
    "C75_tilt_refuted",
    "C75_winriver_position_partial",
    "C75_equator_refuted"
   ],
   "note": "Bottom range, VMDAS position, speeds and directions (block level); WinRiver positions except on the equator or the prime meridian, which become NaN (refutation). Pitch and roll of VMDAS are read without sign (refutation)."
  },
  {
   "property": "C76",
   "status": "partial",
   "theorems": [
    "C76_no_variation_partial",
    "C76_variation_only_partial",
    "C76_both_given",
    "C76_both_refuted"
   ],
   "note": "Without a variation in the file the earth velocity turns by the given declination; with a variation only, it is recorded. With both, the dataset is returned unrotated although the declination recorded is that of the userdata: refuted with a witness."
  },
  {
   "property": "C77",
   "status": "partial",
   "theorems": [
    "C77_all_but_last_partial",
    "C77_last_lost_refuted",
    "C77_one_ensemble_refuted"
   ],
   "note": "All ensembles but the last are read, for all files made of sound ensembles with one cell count and blocks of the table in Spec/Rdi.v. The last one is always lost and a file with one ensemble cannot be read (refutations)."
  },
  {
   "property": "C78",
   "status": "partial",
   "theorems": [
    "C78_water",
    "C78_bottom_refuted"
   ],
   "note": "Proved for the water velocity; refuted for the bottom track velocity."
  },
  {
   "property": "C79",
   "status": "partial",
   "theorems": [
    "C79_first_of_each_time_partial",
    "C79_order_refuted"
   ],
   "note": "One sample per distinct time, always the first recorded, all GPS variables subset alike, the others untouched. The claim 'in order' is refuted: times are sorted. NaN times are dropped."
  },
  {
   "property": "C80",
   "status": "proved",
   "theorems": [
    "C80_nortek",
    "C80_trdi",
    "C80_awac"
   ],
   "note": "The rounding of the AWAC cell size to centimetres is part of the model: the step is the rounded size that is also reported."
  },
  {
   "property": "C81",
   "status": "proved",
   "theorems": [
    "C81_beam_to_inst",
    "C81_inst_to_earth",
    "C81_earth_to_principal"
   ],
   "note": ""
  },
  {
   "property": "C82",
   "status": "partial",
   "theorems": [
    "C82_tidal_range",
    "C82_plain_range_partial",
    "C82_plain_range_refuted"
   ],
   "note": "Tidal mode proved. Without tidal mode the documented range 0..360 is false (a flow to the north-west returns -45, refuted); the true range -90..270 is proved."
  },
  {
   "property": "C83",
   "status": "proved",
   "theorems": [
    "C83_valid_end_untouched",
    "C83_trailing_gap_filled"
   ],
   "note": ""
  },
  {
   "property": "C84",
   "status": "partial",
   "theorems": [
    "C84_detrend_with_missing_refuted",
    "C84_missing_stay_missing_partial"
   ],
   "note": "False: the mean of the index is taken over all samples instead of the valid ones, refuted with samples 0, 1, missing. Proved: missing samples stay missing."
  },
  {
   "property": "C85",
   "status": "partial",
   "theorems": [
    "C85_rows_are_spectra_of_the_bins_partial",
    "C85_padding_refuted"
   ],
   "note": "Proved when the fft is as long as the bin; otherwise the first and last bins are padded with zeros and a constant record has power (refuted)."
  },
  {
   "property": "C86",
   "status": "partial",
   "theorems": [
    "C86_integral_is_variance_partial",
    "C86_even_length",
    "C86_even_length_refuted"
   ],
   "note": "Proved for odd lengths; for even lengths the Nyquist component counts twice: exact excess proved, refuted by a four-sample series."
  },
  {
   "property": "C87",
   "status": "partial",
   "theorems": [
    "C87_cross_spectrum",
    "C87_swap_conjugates",
    "C87_quasisync_order_ignored",
    "C87_quasisync_swap_refuted"
   ],
   "note": "Proved for cpsd; cpsd_quasisync of series of different lengths ignores the order of its arguments (refuted)."
  },
  {
   "property": "C88",
   "status": "partial",
   "theorems": [
    "C88_bin_size_override_refuted"
   ],
   "note": "Refuted: the array has one row per requested bin but is filled with the bins of the binner."
  },
  {
   "property": "C89",
   "status": "partial",
   "theorems": [
    "C89_total_partial",
    "C89_missing_component_refuted"
   ],
   "note": "xarray's sum skips NaN, so bins with no valid component report 0"
  },
  {
   "property": "C90",
   "status": "proved",
   "theorems": [
    "C90_adv_structure_function",
    "C90_raises"
   ],
   "note": "complete bins; lag bounds int(fs/f) taken as naturals"
  },
  {
   "property": "C91",
   "status": "partial",
   "theorems": [
    "C91_separations_partial",
    "C91_only_these",
    "C91_all_these",
    "C91_range_refuted"
   ],
   "note": "uses r0 < r < r1 + bin size: the lower end itself is left out and one separation above the upper end can be used (witnesses)"
  },
  {
   "property": "C92",
   "status": "proved",
   "theorems": [
    "C92_cascade_slope"
   ],
   "note": "one line of the array"
  },
  {
   "property": "C93",
   "status": "proved",
   "theorems": [
    "C93_friction_velocity"
   ],
   "note": "exact profiles"
  },
  {
   "property": "C94",
   "status": "proved",
   "theorems": [
    "C94_noise_level",
    "C94_units_agree"
   ],
   "note": "one spectrum"
  },
  {
   "property": "C95",
   "status": "proved",
   "theorems": [
    "C95_length_scale",
    "C95_never_reached"
   ],
   "note": "positive variance at lag 0"
  },
  {
   "property": "C96",
   "status": "partial",
   "theorems": [
    "C96_te01_rad_partial",
    "C96_te01_hz_bias",
    "C96_hz_refuted"
   ],
   "note": "per Hz the speed is not divided by 2 pi, the estimate is eps/(2 pi) for every input (theorem)"
  },
  {
   "property": "C97",
   "status": "partial",
   "theorems": [
    "C97_argument_used_partial",
    "C97_argument_ignored_refuted"
   ],
   "note": "Holds when the dataset has no beam_angle attribute; otherwise the argument is ignored (refuted)."
  },
  {
   "property": "C98",
   "status": "partial",
   "theorems": [
    "C98_long_gap_refuted",
    "C98_short_gap_partial"
   ],
   "note": "Short gaps are filled; the first maxgap samples of a longer gap are filled too (refuted). Linear method."
  },
  {
   "property": "C99",
   "status": "partial",
   "theorems": [
    "C99_separate_probes_refuted"
   ],
   "note": "Refuted: the matrix product sums over receivers instead of components."
  },
  {
   "property": "C100",
   "status": "proved",
   "theorems": [
    "C100_integral",
    "C100_gravity_removed"
   ],
   "note": "Stated for data without a duty cycle and with both filters off."
  },
  {
   "property": "C101",
   "status": "proved",
   "theorems": [
    "C101_whole_bursts",
    "C101_filter_precedence"
   ],
   "note": ""
  },
  {
   "property": "C102",
   "status": "proved",
   "theorems": [
    "C102_userdata_contents"
   ],
   "note": "Full statement."
  },
  {
   "property": "C103",
   "status": "partial",
   "theorems": [
    "C103_unchanged_partial",
    "C103_nothing_lost",
    "C103_precision_lost_refuted",
    "C103_extra_variables_refuted"
   ],
   "note": "Partial: holds for datasets with neither float64 nor complex variables; refuted otherwise."
  },
  {
   "property": "C104",
   "status": "partial",
   "theorems": [
    "C104_samples_partial",
    "C104_small_guess_refuted"
   ],
   "note": "For Vector files of known, whole blocks. When the guessed number of samples is too small reading raises (C104_small_guess_refuted); when larger, empty samples stay at the end."
  },
  {
   "property": "C105",
   "status": "partial",
   "theorems": [
    "C105_velocity_pressure",
    "C105_attitude_partial",
    "C105_temperature_refuted"
   ],
   "note": "Velocity, pressure, attitude, battery and sound speed proved for all values; temperature only from zero on, below zero it is 655.36 degrees too large (refuted)."
  },
  {
   "property": "C106",
   "status": "partial",
   "theorems": [
    "C106_awac_partial",
    "C106_negative_refuted",
    "C106_awac_velocity"
   ],
   "note": "Velocities proved for all cells; pitch, roll and temperature only from zero on (refuted below)."
  },
  {
   "property": "C107",
   "status": "partial",
   "theorems": [
    "C107_clock_partial",
    "C107_continuous_partial",
    "C107_two_times_refuted"
   ],
   "note": "Proved with three or more recorded times in each burst; refuted for two."
  },
  {
   "property": "C108",
   "status": "partial",
   "theorems": [
    "C108_down",
    "C108_up_partial",
    "C108_turn_refuted",
    "C108_length"
   ],
   "note": "Proved for a set bit and for a cleared bit after a cleared one; a cleared bit right after a set one is reported as down (refuted)."
  },
  {
   "property": "C109",
   "status": "partial",
   "theorems": [
    "C109_waves_refuted",
    "C109_imu_message_refuted",
    "C109_imu_first_refuted"
   ],
   "note": "False: AWAC wave blocks always raise, IMU message 210 loses the samples after it, an IMU block before the first sample makes an empty sample."
  },
  {
   "property": "C110",
   "status": "partial",
   "theorems": [
    "C110_columns_partial",
    "C110_single_ensemble_refuted",
    "C110_last_ensemble_refuted",
    "C110_altimeter_refuted"
   ],
   "note": "For regular files (every ensemble has one record of each id, numbers from 1 on, records shorter than 32768 bytes, ensembles of one size, at least two). Refuted: one ensemble; a last ensemble of another size; altimeter records with only some of the pings."
  },
  {
   "property": "C111",
   "status": "partial",
   "theorems": [
    "C111_altimeter_partial",
    "C111_even_samples_refuted"
   ],
   "note": "Without AHRS data, or with an odd number of samples; refuted for AHRS data and an even number (struct sizes with native alignment)."
  },
  {
   "property": "C112",
   "status": "partial",
   "theorems": [
    "C112_rebuilt_partial",
    "C112_old_index_refuted"
   ],
   "note": "Only with rebuild_index=True; refuted otherwise."
  },
  {
   "property": "C113",
   "status": "partial",
   "theorems": [
    "C113_crop_partial",
    "C113_last_ensemble_refuted"
   ],
   "note": "For regular files and ranges that end before the last ensemble; the last ensemble cannot be kept (refutation)."
  },
  {
   "property": "C114",
   "status": "partial",
   "theorems": [
    "C114_coherent_energy",
    "C114_zero",
    "C114_not_rms_refuted"
   ],
   "note": "the docstring calls it the RMS of the stresses; it is sqrt 3 times that (refuted)"
  },
  {
   "property": "C115",
   "status": "partial",
   "theorems": [
    "C115_uu_partial",
    "C115_uw_refuted",
    "C115_vw_refuted"
   ],
   "note": "u'u' is corrected to first order (explicit constant); u'w' and v'w' are not: cos(th)*2 is written for cos(th)**2 (refuted for every small pitch). Roll and TRDI tilts not treated."
  },
  {
   "property": "C116",
   "status": "partial",
   "theorems": [
    "C116_missing_block_refuted"
   ],
   "note": "Refuted for every variable of the table: an ensemble without the block repeats the value of the ensemble before it."
  },
  {
   "property": "C117",
   "status": "partial",
   "theorems": [
    "C117_checksum_refuted"
   ],
   "note": "Refuted: ensembles with wrong checksums are read like others."
  },
  {
   "property": "C118",
   "status": "partial",
   "theorems": [
    "C118_whole_file_partial",
    "C118_short_refuted"
   ],
   "note": "Up to the last ensemble (C77), for files of ensembles of one length, at least 400 bytes, without bytes that look like a start; refuted for ensembles of 102 bytes: more and more of them are lost."
  },
  {
   "property": "C119",
   "status": "proved",
   "theorems": [
    "C119_variable",
    "C119_time"
   ],
   "note": "For files of sound ensembles as in C77; dates with a two-digit year are in this century by definition."
  },
  {
   "property": "C120",
   "status": "partial",
   "theorems": [
    "C120_no_date_refuted"
   ],
   "note": "Refuted: the whole read fails."
  },
  {
   "property": "C121",
   "status": "partial",
   "theorems": [
    "C121_winriver_refuted"
   ],
   "note": "Refuted: after the bottom track block of a WinRiver file the position is 12 bytes before the next block."
  },
  {
   "property": "C122",
   "status": "partial",
   "theorems": [
    "C122_settings",
    "C122_range",
    "C122_changed_refuted"
   ],
   "note": "proved for the settings of the last ensemble read; the full statement is false when the settings change inside a file (all ensembles get the last one's). The serial number and bandwidth are covered for the firmware versions that record them."
  },
  {
   "property": "C123",
   "status": "partial",
   "theorems": [
    "C123_fs",
    "C123_vmdas_refuted"
   ],
   "note": "the formula from the settings holds; the VMDAS/WinRiver half is refuted by a concrete file."
  },
  {
   "property": "C124",
   "status": "partial",
   "theorems": [
    "C124_ellipsoid_partial",
    "C124_threshold",
    "C124_units",
    "C124_constant"
   ],
   "note": "For windows in which the ellipsoid has a volume (some difference not zero, the second difference no affine function of the deviation) and constant windows. Missing: what is flagged in other degenerate windows (0/0 in the radius of the ellipsoid). Exact real arithmetic."
  },
  {
   "property": "C125",
   "status": "proved",
   "theorems": [
    "C125_finishes",
    "C125_windows",
    "C125_local"
   ],
   "note": "For exact arithmetic: the 2x2 system is never singular because the second difference is smaller than the deviation in the mean square; the loop makes at most two passes because u is not changed in it. Long gaps are used to cut the record only when there are three of them and the first sample is present."
  },
  {
   "property": "C126",
   "status": "partial",
   "theorems": [
    "C126_window_off",
    "C126_spike_lost_refuted"
   ],
   "note": "Refuted: one NaN makes the mean of its window NaN and no sample of that window (5000 samples by default) is marked. C126_window_off says so for every window."
  },
  {
   "property": "C127",
   "status": "partial",
   "theorems": [
    "C127_values_partial",
    "C127_lag_zero",
    "C127_affine",
    "C127_variance_refuted",
    "C127_bin_sizes_raise",
    "C127_argument_raises",
    "C127_offset_refuted"
   ],
   "note": "Values, lag zero and invariance are proved for records of two bins or more and bin sizes 0 or 1 modulo 4 (not 5). Refuted: lag zero is n_bin times the variance (sums are not divided by the number of samples); with a single bin an offset changes the result (zero padding). All bin sizes 2 or 3 modulo 4 raise, and an n_bin argument that changes the number of bins raises. Missing: records with NaN."
  },
  {
   "property": "C128",
   "status": "partial",
   "theorems": [
    "C128_values_partial",
    "C128_affine",
    "C128_dt_refuted",
    "C128_offset_refuted"
   ],
   "note": "Proved for the lag k-(npt-1)//2 at index k and all samples inside the record, with bins of n_bin samples in both records (int(N/(N/n_bin)) taken without rounding; C155 shows the lengths for which rounding matters). Refuted: the coordinate dt (0..npt-1) is not that lag for npt >= 3, and in the end bins an offset changes the result. Missing: records with NaN, records of different length."
  },
  {
   "property": "C129",
   "status": "partial",
   "theorems": [
    "C129_zero_lag",
    "C129_self",
    "C129_bound_refuted"
   ],
   "note": "Proved at lag zero (Cauchy-Schwarz). Refuted at other lags: the value can exceed 1."
  },
  {
   "property": "C130",
   "status": "partial",
   "theorems": [
    "C130_quantities_partial",
    "C130_velocity",
    "C130_pressure_sensor",
    "C130_floats",
    "C130_angular_rates",
    "C130_float_value",
    "C130_fifth_beam",
    "C130_negative_temperature_refuted"
   ],
   "note": "All fields with a resolution shown within half a count, in the dataset and for every ping, with or without a fifth beam (whose sensors are averaged with those of its ping). Temperatures below zero cannot be read: the field is unsigned (refuted). The magnetometer of bottom-track records is C132."
  },
  {
   "property": "C131",
   "status": "partial",
   "theorems": [
    "C131_blanking_partial",
    "C131_blanking_refuted"
   ],
   "note": "Bursts and averages are right when the flag says centimetres, echosounder pings when it says millimetres; otherwise the distance is wrong by a factor of ten (refuted): the code ignores the flag."
  },
  {
   "property": "C132",
   "status": "partial",
   "theorems": [
    "C132_magnetometer_refuted"
   ],
   "note": "False: bottom-track records are not scaled, so the same counts give ten times the value (refuted by a witness)."
  },
  {
   "property": "C133",
   "status": "partial",
   "theorems": [
    "C133_carried_partial",
    "C133_echo",
    "C133_ensemble",
    "C133_percent_good_refuted"
   ],
   "note": "All variables in the list `carried`, sensors, and the echo; the fraction of good pings is recorded as 'percent_good' but copied as 'prcnt_gd', so it is lost (refuted). Raw altimeter pings are C138."
  },
  {
   "property": "C134",
   "status": "partial",
   "theorems": [
    "C134_burst_partial",
    "C134_average_refuted",
    "C134_gap_refuted"
   ],
   "note": "Right for files without averages; with averages fs is the interval in seconds, not the rate (refuted), and times missing at the end are filled with 1/interval (refuted)."
  },
  {
   "property": "C135",
   "status": "partial",
   "theorems": [
    "C135_orientation_partial",
    "C135_second_profile_refuted"
   ],
   "note": "Proved for bursts and for averages alone, refuted for the second dataset of a dual-profile file: it keeps the recorded matrix."
  },
  {
   "property": "C136",
   "status": "proved",
   "theorems": [
    "C136_clock",
    "C136_impossible",
    "C136_complete"
   ],
   "note": "Proved with a calendar defined second by second. Float rounding of the seconds is idealised."
  },
  {
   "property": "C137",
   "status": "partial",
   "theorems": [
    "C137_pings",
    "C137_split_partial",
    "C137_equal_refuted",
    "C137_string_refuted"
   ],
   "note": "Pings and split proved; the split raises when both profiles have equally many pings (refuted for every such file) and reading raises when there is a string record (refuted)."
  },
  {
   "property": "C138",
   "status": "partial",
   "theorems": [
    "C138_samples_partial",
    "C138_negative_refuted"
   ],
   "note": "Non-negative samples proved; negative ones come out 256 too large since the array is unsigned (refuted)."
  },
  {
   "property": "C139",
   "status": "partial",
   "theorems": [
    "C139_burst_partial",
    "C139_average_refuted"
   ],
   "note": "Every burst file proved readable; average files without AHRS raise KeyError (refuted)."
  },
  {
   "property": "C140",
   "status": "partial",
   "theorems": [
    "C140_state_partial",
    "C140_unnamed_refuted"
   ],
   "note": "Named codes proved when all pings agree; orientation 6, detection 2 and wake-up states from 4 on raise KeyError (refuted)."
  },
  {
   "property": "C141",
   "status": "proved",
   "theorems": [
    "C141_signature",
    "C141_trdi",
    "C141_vector",
    "C141_awac"
   ],
   "note": "Proved for the four families with three or four beams (TRDI: four; Vector, AWAC: three), all subsets, orders and sizes. The figure of merit (fom_bt) is not in the layout: C142. Units and names are not modelled."
  },
  {
   "property": "C142",
   "status": "partial",
   "theorems": [
    "C142_beams_refuted",
    "C142_few_beams_refuted",
    "C142_bottom_track_lost_refuted",
    "C142_bottom_track_axis_refuted",
    "C142_figure_of_merit_refuted"
   ],
   "note": "All parts refuted: a profile with another number of beams than the one taken for the file always ends in an exception; a bottom track of four beams beside averages of three is lost; one of three in a file of four is put on dirIMU; fom_bt is on dir instead of beam."
  },
  {
   "property": "C143",
   "status": "partial",
   "theorems": [
    "C143_averages_partial",
    "C143_variances_partial"
   ],
   "note": "Partial: the attributes and the check by _check_ds are C32; float32 rounding, non-numeric variables and an out_ds that already has other coordinates (xarray would align them) are not modelled. The variable U_std of the raw data itself is overwritten."
  },
  {
   "property": "C144",
   "status": "partial",
   "theorems": [
    "C144_static_lost_refuted",
    "C144_short_axis_refuted",
    "C144_no_velocity_refuted"
   ],
   "note": "Refuted, each in general: for n_bin >= 2 every variable without time is absent from the result (the assignment fails and a bare except drops it), so the result cannot be rotated; a time axis shorter than n_bin raises outside the try; no variable vel raises."
  },
  {
   "property": "C145",
   "status": "partial",
   "theorems": [
    "C145_heading_refuted"
   ],
   "note": "Refuted by a witness: 359 and 1 degrees average to 180."
  },
  {
   "property": "C146",
   "status": "partial",
   "theorems": [
    "C146_coordinates_partial",
    "C146_other_axes_refuted"
   ],
   "note": "Partial: shown for the axis called time with n_bin of the binner (an n_bin passed to the call is not used by the code). Refuted for every other time axis: array.time raises AttributeError."
  },
  {
   "property": "C147",
   "status": "proved",
   "theorems": [
    "C147_new",
    "C147_override"
   ],
   "note": "An override is bounded by the bin of the binner, not by an n_bin passed to the same call."
  },
  {
   "property": "C148",
   "status": "partial",
   "theorems": [
    "C148_vector_partial",
    "C148_awac_partial",
    "C148_no_system_data_refuted",
    "C148_last_system_data_refuted",
    "C148_fractional_rate_refuted"
   ],
   "note": "Proved for Vector files with system data before the last block, at most int(fs) samples between successive system data and, beyond fifty, system data no closer on the whole than the first ones; for AWAC files with at least one profile. Refuted in general: no system data, a single one at the end (division by zero), and rates that int(fs) rounds down, for which every long enough file raises. Quotients exact instead of floating point."
  },
  {
   "property": "C149",
   "status": "partial",
   "theorems": [
    "C149_zero_size_refuted",
    "C149_for_ever_refuted",
    "C149_ends"
   ],
   "note": "Refuted: a block with size word zero is looked at for ever (C149_zero_size_refuted for a whole read of a Vector file, C149_for_ever_refuted for the search). C149_ends: on files without such bytes the search always answers within as many steps as there are bytes."
  },
  {
   "property": "C150",
   "status": "partial",
   "theorems": [
    "C150_median_partial",
    "C150_outliers_partial",
    "C150_kernel",
    "C150_length",
    "C150_constant",
    "C150_first_refuted",
    "C150_invented_refuted"
   ],
   "note": "Proved for samples at least half a kernel away from the ends; refuted at the ends, where the record is continued with zeros: the first sample of every positive record becomes the least of the first nfilt//2+1, and values never recorded can appear. NaN in the record are not modelled (scipy's order with NaN is unspecified)."
  },
  {
   "property": "C151",
   "status": "partial",
   "theorems": [
    "C151_quaternions_partial",
    "C151_success_partial",
    "C151_angles",
    "C151_opposite_refuted",
    "C151_twice_refuted"
   ],
   "note": "Proved when no filtered quaternion vanishes; refuted: a record beginning with q, -q raises for nfilt=3, and filtering angles twice raises because the matrix to drop is gone."
  },
  {
   "property": "C152",
   "status": "partial",
   "theorems": [
    "C152_median_partial",
    "C152_first_refuted",
    "C152_fraction",
    "C152_gap_refuted"
   ],
   "note": "Proved for complete estimates away from the ends; refuted at the ends (least of the first half kernel). The threshold is compared with a fraction of missing samples, so the value 4 used here never blanks anything (C152_gap_refuted, for every threshold from 1 on)."
  },
  {
   "property": "C153",
   "status": "partial",
   "theorems": [
    "C153_coordinates",
    "C153_spectra_partial",
    "C153_noise",
    "C153_components",
    "C153_units",
    "C153_n_bin_raises",
    "C153_n_bin_ignored",
    "C153_n_bin_refuted"
   ],
   "note": "Proved for the settings of the binner. Refuted: n_bin given to the call raises whenever it asks for another number of bins, and otherwise has no effect (the bins and instants are the binner's)."
  },
  {
   "property": "C154",
   "status": "partial",
   "theorems": [
    "C154_cross_spectra_partial",
    "C154_n_bin_raises",
    "C154_n_bin_refuted"
   ],
   "note": "Proved for the bin length of the binner. Refuted for n_bin given to the call, as C153."
  },
  {
   "property": "C155",
   "status": "partial",
   "theorems": [
    "C155_coherence_partial",
    "C155_phase_partial",
    "C155_equal_lengths",
    "C155_drift_refuted",
    "C155_truncation_refuted",
    "C155_n_fft_raises",
    "C155_shorter_first"
   ],
   "note": "Proved when both records are a whole number of bins (binary64 division modelled bit by bit). Refuted: n_bin1 = int(N1/(N2/n_bin2)) truncates, and by rounding is one too small for some records of equal length (29 samples in bins of 7), so the bins drift apart; with equal lengths it is never off by more than one (C155_equal_lengths). n_fft_coh given to the call raises."
  },
  {
   "property": "C156",
   "status": "partial",
   "theorems": [
    "C156_symmetric_partial",
    "C156_order_ignored",
    "C156_symmetric_refuted"
   ],
   "note": "Proved for equal lengths; refuted for different lengths: the signals are swapped, the noise levels are not."
  },
  {
   "property": "C157",
   "status": "partial",
   "theorems": [
    "C157_result_partial",
    "C157_raw_changed",
    "C157_raw_unchanged_partial",
    "C157_raw_unchanged_refuted"
   ],
   "note": "Refuted: attributes whose name contains config are removed from the raw dataset. The averaged variables of the result are C143, its energies C41 and C89, its stresses C41."
  },
  {
   "property": "C158",
   "status": "partial",
   "theorems": [
    "C158_dates_partial",
    "C158_dates_refuted",
    "C158_shown_partial",
    "C158_dataset_partial",
    "C158_dataset_refuted",
    "C158_nanoseconds_partial",
    "C158_nanoseconds_refuted",
    "C158_seconds",
    "C158_order"
   ],
   "note": "Dates exact within 2^33 s of 1970, shown to the microsecond up to 2106 and through a dataset up to 2038, nanoseconds within 248 ns up to 2038 and 1 microsecond up to 2242, order always kept. Refuted: dates after 2242, readings after 2038 through a dataset (a microsecond off), nanoseconds exactly. NaN and infinities not modelled."
  },
  {
   "property": "C159",
   "status": "partial",
   "theorems": [
    "C159_matlab_partial",
    "C159_nearest_refuted"
   ],
   "note": "Multiples of 100 microseconds come back exactly, all dates within 60 microseconds; refuted: not always the nearest multiple."
  },
  {
   "property": "C160",
   "status": "partial",
   "theorems": [
    "C160_position_partial",
    "C160_exact_refuted"
   ],
   "note": "Position to 24 bits (relative error 2^-24) with its sign and the other numbers of the sentence; refuted: positions are stored as 32-bit floats, places 40 cm apart are read as the same."
  },
  {
   "property": "C161",
   "status": "partial",
   "theorems": [
    "C161_time_partial",
    "C161_midnight_refuted"
   ],
   "note": "Right when profiler and GPS are on the same day; refuted: around midnight the time is a day wrong, as the date is that of the profiler."
  },
  {
   "property": "C162",
   "status": "proved",
   "theorems": [
    "C162_speed",
    "C162_depth",
    "C162_heading"
   ],
   "note": "Speed within 1e-4 (the factor 1.944), course, depth, heading within 2^-24."
  },
  {
   "property": "C163",
   "status": "partial",
   "theorems": [
    "C163_stale_refuted",
    "C163_null_island_refuted"
   ],
   "note": "Refuted: the values of the previous ensemble stay; an empty first sentence gives latitude and longitude 0."
  },
  {
   "property": "C164",
   "status": "partial",
   "theorems": [
    "C164_places_partial",
    "C164_unknown_sentence_refuted",
    "C164_garbled_refuted"
   ],
   "note": "Blocks are read at the header's offsets unless a sentence is of another number or WinRiver bottom track comes; refuted for those and for sentences that are no text, which hide the blocks behind them."
  },
  {
   "property": "C165",
   "status": "partial",
   "theorems": [
    "C165_imu_partial",
    "C165_guessed_partial",
    "C165_bursts_partial",
    "C165_first_partial",
    "C165_no_imu_refuted",
    "C165_incomplete_burst_refuted"
   ],
   "note": "Proved for files read to the end with an IMU message after every sample (also with the room the reader guesses itself), for whole bursts with or without IMU, and for the first samples asked for. Refuted without an IMU (made up samples follow, with NaN velocity, zero amplitude, correlation and pressure, and times that go on) and for a last burst that was broken off. The clock is taken to advance evenly."
  },
  {
   "property": "C166",
   "status": "partial",
   "theorems": [
    "C166_continuous_partial",
    "C166_bursts_partial",
    "C166_every_sample_refuted"
   ],
   "note": "Recorded values are kept and joined by straight lines in time, continuous or in bursts; refuted: samples before the first and after the last system data have none. The clock is taken to advance evenly within a burst."
  },
  {
   "property": "C167",
   "status": "partial",
   "theorems": [
    "C167_continuous_partial",
    "C167_bursts_partial"
   ],
   "note": "All components of messages 195, 204 and 211 after every sample, all of one kind and all numbers finite; message 210 cannot be read (C109). Floats exact."
  },
  {
   "property": "C168",
   "status": "partial",
   "theorems": [
    "C168_profiles_partial",
    "C168_matrix_partial",
    "C168_matrix_refuted"
   ],
   "note": "Proved for files of profiles and configuration blocks whose profiles lie evenly enough for the guess of the room (C148), with at least one cell and at most three beams. The matrix is kept with three profiles or more; with two profiles and a configuration behind them it loses a column (C168_matrix_refuted), because _handle_nan cuts every variable whose last dimension happens to be as long as the time. Missing: reading only the first profiles (nens), 32-bit rounding of the values."
  },
  {
   "property": "C169",
   "status": "partial",
   "theorems": [
    "C169_vector_partial",
    "C169_awac_partial",
    "C169_trdi_partial",
    "C169_signature_partial",
    "C169_times_partial",
    "C169_times_refuted",
    "C169_single_refuted",
    "C169_computed_refuted",
    "C169_fifth_lost_refuted",
    "C169_fifth_first_refuted",
    "C169_fifth_cells_refuted"
   ],
   "note": "Proved for datasets with variables of the readers (each of the four layouts, orientation matrix and head rotation added) in any order and with all axes of length two or more; for the fifth beam of a Signature if its profiles follow other data of the fifth beam and do not have three cells. Refuted otherwise: an axis of length one cannot be loaded; a computed variable on cells and times is lost in silence; a profile of the fifth beam behind other data is lost, first of all variables raises NameError, with three cells comes back on other axes. Times within 61 us (default) or 0.75 us, exact for multiples of 100 us or 1 us; not always exact. Attributes, units and the values of coordinates other than times are not modelled."
  },
  {
   "property": "C170",
   "status": "partial",
   "theorems": [
    "C170_readable_partial",
    "C170_velocity",
    "C170_quantities_partial",
    "C170_times",
    "C170_ensemble",
    "C170_orientation"
   ],
   "note": "Every theorem takes the dataset that read_signature returns for the bytes of the file; C170_readable_partial shows that files of bursts are read. Not covered: files with two profiles (C137), raw altimeter pings, what C110, C130 and C136 miss."
  },
  {
   "property": "C171",
   "status": "partial",
   "theorems": [
    "C171_commands_partial",
    "C171_lines",
    "C171_rate",
    "C171_matrix",
    "C171_model",
    "C171_beam_angle_partial",
    "C171_names_refuted",
    "C171_repeated_refuted",
    "C171_empty_line_refuted",
    "C171_quoted_refuted",
    "C171_small_angle_refuted",
    "C171_half_angle_refuted",
    "C171_one_beam_refuted"
   ],
   "note": "Texts are lists of character codes (ASCII). Numerals with exponents, underscores or names such as nan are not covered. The beam angle is proved for two or more beams and two-digit angles; the rest is refuted."
  },
  {
   "property": "C172",
   "status": "proved",
   "theorems": [
    "C172_earth_velocities",
    "C172_declination",
    "C172_both_declinations",
    "C172_times_ranges"
   ],
   "note": "The whole chain of a TRDI file: index, blocks, values (C74-C79, C116-C122), matrices (C80), declination (C76), rotations (C81) in one statement, with the manual's formulas as specification (Spec/Trdi.v). The settings are those of the last ensemble read (C122). When the instrument applied a variation and the user gives a declination as well, see C76. Exact real numbers stand for floats; the second profile, the surface layer and GPS are not part of this dataset."
  },
  {
   "property": "C173",
   "status": "partial",
   "theorems": [
    "C173_first_clock_refuted",
    "C173_later_clock_partial"
   ],
   "note": "Refuted: if the clock of the first ensemble is wrong, read raises IndexError and no dataset is made (rdi.py:74-75 and 130), for every file. For later ensembles the claim is proved (C173_later_clock_partial)."
  },
  {
   "property": "C174",
   "status": "partial",
   "theorems": [
    "C174_awac_partial",
    "C174_down_refuted",
    "C174_negative_pitch_refuted",
    "C174_head_matrix"
   ],
   "note": "Proved for non-negative tilts and an instrument that points up, and for files in ENU coordinates (C174_awac_partial), with and without a declination. Refuted for every file with an instrument that points down (status bit 0 is not looked at for AWACs; C174_down_refuted) and with negative pitch (tilts are read as unsigned numbers, C106; C174_negative_pitch_refuted). A head rotation matrix in the userdata is refused (C174_head_matrix). Files of at least three profiles (C168)."
  },
  {
   "property": "C175",
   "status": "partial",
   "theorems": [
    "C175_vector_partial",
    "C175_north_refuted"
   ],
   "note": "Proved for files without IMU data, continuous or in whole bursts, whose mounting does not change: at samples with system data, between them (angles on the straight line in time), after the last system data (its attitude) and before the first (no attitude: NaN), with and without a declination (C175_vector_partial). Refuted at north: between headings of 359 and 1 degree the heading is taken as 180 degrees and the velocities are reversed (C175_north_refuted). An instrument that is turned over has wrong samples near the turn (C108_turn_refuted). Not covered: IMU files, a head rotation matrix."
  },
  {
   "property": "C176",
   "status": "partial",
   "theorems": [
    "C176_velocities_partial",
    "C176_earth_declination_partial",
    "C176_sensors_partial",
    "C176_three_beams",
    "C176_earth_files_sensors_refuted",
    "C176_three_beams_refuted"
   ],
   "note": "Proved for bursts of four beams: velocities in all frames (C176_velocities_partial; C176_earth_declination_partial for files in earth coordinates with a declination, of instruments without AHRS that do not lie on their side), accelerations and magnetic field for files in beam or XYZ coordinates (C176_sensors_partial). Refuted: in files in earth coordinates the accelerations and the magnetic field stay in instrument axes although the dataset says 'earth' (C176_earth_files_sensors_refuted); files of three-beam instruments in XYZ or ENU coordinates cannot be opened, the four axis labels do not fit (C176_three_beams, C176_three_beams_refuted). Not covered: averages, the fifth beam, dual profiles, the sign correction of old firmware and the special matrix of the Signature55 in the manufacturer's script (the program has neither)."
  },
  {
   "property": "C177",
   "status": "partial",
   "theorems": [
    "C177_range_partial",
    "C177_mixed_partial",
    "C177_mm_refuted"
   ],
   "note": "Proved for blanking in centimetres (C177_range_partial). Refuted for blanking in millimetres: the status bit is not looked at and the blanking is taken for ten times what it is (C177_mm_refuted). Not covered: the echosounder, dual profiles. C177_mixed_partial covers pings whose counts differ: zeros of the fifth beam are passed over, bursts and averages take the most frequent count."
  },
  {
   "property": "C178",
   "status": "partial",
   "theorems": [
    "C178_settings_partial"
   ],
   "note": "From the bytes of the three blocks. Not covered: Vectrinos, texts that are not ASCII, attributes that no later step uses; the timing control register is C68, the other byte order C64."
  },
  {
   "property": "C179",
   "status": "partial",
   "theorems": [
    "C179_awac_partial",
    "C179_vector_partial",
    "C179_ranges_partial",
    "C179_frequency"
   ],
   "note": "Combines C178 with C174 and C175, whose limits apply; files with configuration blocks among the data are excluded. An AWAC of a frequency without a coefficient cannot be read."
  },
  {
   "property": "C180",
   "status": "proved",
   "theorems": [
    "C180_numbers",
    "C180_switches",
    "C180_texts",
    "C180_others",
    "C180_duty",
    "C180_instrument"
   ],
   "note": "Every attribute that the header of an AWAC or Vector file sets has the value at the manufacturer's place, once, from the first byte of the file. Not included: duty_cycle_description (decimal notation of floats), prc_dyn_wave_cell_pos (rounding of a float), rotate_vars and has_imu (constants), and burst_mode, which is always true (C68_burst_mode_refuted)."
  },
  {
   "property": "C181",
   "status": "partial",
   "theorems": [
    "C181_each",
    "C181_single",
    "C181_injective",
    "C181_order_partial",
    "C181_order_refuted",
    "C181_format"
   ],
   "note": "On Linux, where %Y has no leading zeros; texts of years before 1000 therefore do not sort like the dates (C181_order_refuted). Not covered: other directives, time zones."
  },
  {
   "property": "C182",
   "status": "partial",
   "theorems": [
    "C182_readable",
    "C182_variables",
    "C182_idle",
    "C182_agreed",
    "C182_unused_counted_refuted"
   ],
   "note": "Each status variable is the bit of its ping; the processor attributes are there exactly if a word is in use, with the value of at least half of the pings. The words of pings that do not use them are counted too (refuted). The words themselves are those of the first record (C139)."
  }
 ]
}