{"id": "C01", "title": "Rotating to another frame and back restores the data", "statement": "For any dataset and any two frames of the chain beam/inst/earth/principal, calling rotate2 to the second frame and then rotate2 back to the first leaves every rotated variable with its original values and coord_sys with its original name, whenever the matrices involved are what they are supposed to be (invertible beam matrix, orthonormal orientation and head matrices, vertical axis not horizontal for 4-beam Signatures).", "quantifier": "every instrument family (Vector, AWAC, Signature, TRDI), every pair of frames, every number of samples and every sample value, every admissible matrix, every principal heading", "why_tests_cant": "Infinitely many matrices, angles, velocities and series lengths; a test checks a handful of recorded files with a tolerance.", "anchors": ["dolfyn/rotate/api.py:rotate2", "dolfyn/rotate/vector.py:_beam2inst", "dolfyn/rotate/vector.py:_inst2earth", "dolfyn/rotate/vector.py:_earth2principal", "dolfyn/rotate/base.py:_beam2inst", "dolfyn/rotate/signature.py:_inst2earth", "dolfyn/rotate/rdi.py:_inst2earth"]}
{"id": "C02", "title": "Rotation result does not depend on the route", "statement": "Rotating a dataset to frame B and then to frame C gives the same dataset as rotating directly to C, for any B and C, under the same conditions as C01.", "quantifier": "every instrument family, all triples of frames, all data", "why_tests_cant": "All 64 triples times all matrices and values.", "anchors": ["dolfyn/rotate/api.py:rotate2"]}
{"id": "C03", "title": "Frame rotations preserve speed", "statement": "inst->earth, earth->principal and their inverses keep the Euclidean norm of every 3-component vector; earth->principal leaves the vertical component untouched; the TRDI rotation leaves the error velocity untouched.", "quantifier": "all orthonormal orientation matrices, all headings, all vectors", "why_tests_cant": "Universally quantified real identity.", "anchors": ["dolfyn/rotate/vector.py:_inst2earth", "dolfyn/rotate/vector.py:_earth2principal", "dolfyn/rotate/rdi.py:_inst2earth"]}
{"id": "C04", "title": "rotate2 either reaches the requested frame or raises", "statement": "rotate2 terminates for every input. When it returns, coord_sys is exactly the requested frame and the axis labels are those of that frame; unknown instruments and unknown frames are rejected before anything is modified; data in the 'ship' frame can be rotated forward to earth but a request for inst or beam is an error.", "quantifier": "every starting frame (including ship and unknown strings), every requested frame, every instrument name", "why_tests_cant": "Loop termination and the complete case table over arbitrary strings cannot be enumerated by tests.", "anchors": ["dolfyn/rotate/api.py:rotate2", "dolfyn/rotate/base.py:_set_coords"]}
{"id": "C05", "title": "Setting the declination replaces the previous one", "statement": "set_declination(d1) followed by set_declination(d2) has exactly the same effect on the orientation matrix, heading, principal heading, velocities and attributes as set_declination(d2) alone; setting the same value twice changes nothing; setting it back to 0 recovers the original data.", "quantifier": "all pairs of angles, all datasets in beam/inst/earth/principal frame", "why_tests_cant": "Real-valued law over all angles and orientation matrices.", "anchors": ["dolfyn/rotate/api.py:set_declination"]}
{"id": "C06", "title": "Declination rotates earth velocities clockwise and commutes with rotate2", "statement": "After set_declination(d) on data without declination, the earth-frame velocity is the old earth-frame velocity rotated by d degrees clockwise about the vertical, instrument and beam frame velocities are unchanged, heading increases by d, and it makes no difference whether the declination is set before or after rotating to the earth frame.", "quantifier": "all angles, all orientation matrices, all velocities", "why_tests_cant": "Real-valued law over all angles.", "anchors": ["dolfyn/rotate/api.py:set_declination"]}
{"id": "C07", "title": "Principal frame is unaffected by declination", "statement": "If principal_heading is set, set_declination moves it by the same angle so that principal-frame velocities are the same before and after, and rotating principal data to earth afterwards yields true-earth data.", "quantifier": "all angles, headings, velocities", "why_tests_cant": "Real-valued law.", "anchors": ["dolfyn/rotate/api.py:set_declination", "dolfyn/rotate/vector.py:_earth2principal"]}
{"id": "C08", "title": "The instrument-to-head rotation can be set in any frame, once", "statement": "For an orthonormal matrix, set_inst2head_rotmat gives the same data in every frame no matter which frame the dataset was in when it was called; a second call is rejected, and other instruments are rejected.", "quantifier": "all orthonormal matrices, all four frames, all data", "why_tests_cant": "Real-valued law over all frames and matrices.", "anchors": ["dolfyn/rotate/api.py:set_inst2head_rotmat", "dolfyn/rotate/vector.py:_rotate_inst2head"]}
{"id": "C09", "title": "An accepted inst2head matrix gives reversible rotations", "statement": "Every inst2head_rotmat accepted by the validity check yields beam->inst->beam rotations that restore the velocity.", "quantifier": "all 3x3 matrices accepted by the check", "why_tests_cant": "Needs an adversarial matrix; tests use real rotations.", "anchors": ["dolfyn/rotate/vector.py:_check_inst2head_rotmat", "dolfyn/rotate/base.py:_check_rotmat_det"]}
{"id": "C10", "title": "Heading/pitch/roll always give a proper rotation matrix", "statement": "The orientation matrices built from heading, pitch and roll by euler2orient, by the Nortek reader and by the TRDI reader are orthonormal with determinant +1 for every angle, and euler2orient and the Nortek builder agree.", "quantifier": "all real angles, up/down orientation, ship frame", "why_tests_cant": "Trigonometric identity over all angles.", "anchors": ["dolfyn/rotate/base.py:euler2orient", "dolfyn/rotate/vector.py:_euler2orient", "dolfyn/rotate/rdi.py:_calc_orientmat"]}
{"id": "C11", "title": "orient2euler inverts euler2orient", "statement": "orient2euler(euler2orient(h,p,r)) returns (h,p,r) for 0<=h<360, |p|<90, -180<r<=180; heading is always in [0,360), pitch in [-90,90], roll in (-180,180]; and euler2orient(orient2euler(O)) = O for every proper rotation matrix O whose x-axis is not vertical.", "quantifier": "all angles in range; all rotation matrices", "why_tests_cant": "Inverse trigonometric functions with branch cuts: failures sit at the boundaries.", "anchors": ["dolfyn/rotate/base.py:orient2euler", "dolfyn/rotate/base.py:euler2orient"]}
{"id": "C12", "title": "Quaternion orientation is a proper rotation independent of sign and scale", "statement": "quaternion2orient gives an orthonormal determinant-1 earth->inst matrix for every non-zero quaternion; q and -q (and any positive multiple) give the same matrix; the identity quaternion gives the identity; it is the transpose of the instrument->earth rotation v -> q v q*.", "quantifier": "all non-zero quaternions", "why_tests_cant": "Real identity over all quaternions.", "anchors": ["dolfyn/rotate/base.py:quaternion2orient"]}
{"id": "C13", "title": "TRDI beam matrix inverts the Janus geometry", "statement": "For every beam angle with non-zero sine and cosine, applying the beam->inst matrix to the four radial beam velocities that a homogeneous velocity (u,v,w) produces on the Janus geometry returns (u,v,w) with zero error velocity, the matrix is invertible, and the error velocity responds only to the flow's departure from homogeneity.", "quantifier": "all beam angles, both head configurations, all velocities", "why_tests_cant": "Real identity over all angles.", "anchors": ["dolfyn/rotate/rdi.py:_calc_beam_orientmat"]}
{"id": "C14", "title": "The 4-beam Signature rotation extends the 3-D rotation", "statement": "If both vertical estimates agree, the 4-component inst->earth rotation gives exactly the 3-D rotation with both vertical outputs equal; the 4x4 matrix is invertible exactly when the instrument z-axis is not horizontal.", "quantifier": "all orientation matrices, velocities, up/down mounting", "why_tests_cant": "Real identity.", "anchors": ["dolfyn/rotate/signature.py:_inst2earth"]}
{"id": "C15", "title": "Principal heading is insensitive to flow reversal and follows rotations", "statement": "In tidal mode calc_principal_heading is unchanged when any subset of the velocity samples is reversed (multiplied by -1); a purely bidirectional flow along one axis returns that axis (mod 180); non-tidal mode returns the direction of the mean vector.", "quantifier": "all series lengths, all velocities, all subsets", "why_tests_cant": "All subsets of samples.", "anchors": ["dolfyn/rotate/api.py:calc_principal_heading"]}
{"id": "C16", "title": "Tilt is a valid inclination", "statement": "calc_tilt is 0 exactly when pitch and roll are 0, lies in [0,90), is even in both arguments, is at least |pitch| and at least |roll|, and equals the angle between the instrument z-axis and the vertical implied by the orientation matrix built from the same pitch and roll.", "quantifier": "all pitch, roll in (-90,90)", "why_tests_cant": "Real inequality over a continuum.", "anchors": ["dolfyn/rotate/base.py:calc_tilt", "dolfyn/rotate/base.py:euler2orient"]}
{"id": "C17", "title": "Angle convention conversion is an involution with the documented range", "statement": "convert_degrees applied twice (same mode) returns the original angle modulo 360; with tidal_mode False the result is in [0,360), with tidal_mode True it is in (-180,180]; and it maps 'CCW from East' to 'CW from North' directions (same unit vector).", "quantifier": "all real angles", "why_tests_cant": "Branch/wrap boundaries over a continuum.", "anchors": ["dolfyn/tools/misc.py:convert_degrees"]}
{"id": "C18", "title": "epoch2dt64 denotes the same instant", "statement": "For every epoch value the nanosecond timestamp returned by epoch2dt64 is within 1 ns (rounding down) of the given number of seconds since 1970, before as well as after 1970.", "quantifier": "all rational epoch times, positive and negative", "why_tests_cant": "Sign/fraction boundary cases over a continuum.", "anchors": ["dolfyn/time.py:epoch2dt64"]}
{"id": "C19", "title": "Epoch/datetime64 conversions round-trip and preserve order", "statement": "dt642epoch inverts epoch2dt64 on whole nanoseconds and epoch2dt64 inverts dt642epoch; conversion is monotone, so sorted time stays sorted.", "quantifier": "all timestamps at or after 1970 (exact arithmetic)", "why_tests_cant": "All values.", "anchors": ["dolfyn/time.py:epoch2dt64", "dolfyn/time.py:dt642epoch"]}
{"id": "C20", "title": "MATLAB datenum conversion round-trips to 100 microseconds", "statement": "matlab2date(date2matlab(t)) equals t rounded to the nearest 100 microseconds for every datetime, the datenum is strictly increasing in t and increases by one per day.", "quantifier": "all datetimes", "why_tests_cant": "All values, including the last microseconds of a day.", "anchors": ["dolfyn/time.py:date2matlab", "dolfyn/time.py:matlab2date"]}
{"id": "C21", "title": "Two-digit instrument years map to one century window", "statement": "The year expansion used for Nortek clocks maps 0..89 to 2000..2089 and 90..99 to 1990..1999, is injective on two-digit years, and leaves four-digit years unchanged.", "quantifier": "all years", "why_tests_cant": "Finite but boundary-sensitive; the statement is over all integers.", "anchors": ["dolfyn/time.py:_fullyear"]}
{"id": "C22", "title": "Filling time gaps keeps every recorded time and leaves none missing", "statement": "_fill_time_gaps returns a series of the same length in which recorded (non-NaN) times are unchanged, nothing is missing when at least one time was recorded, interior gaps lie on the straight line between their neighbours, and the ends continue with step 1/fs; if recorded times increase, the filled series increases.", "quantifier": "all series lengths, all NaN patterns", "why_tests_cant": "Exponentially many gap patterns.", "anchors": ["dolfyn/time.py:_fill_time_gaps"]}
{"id": "C23", "title": "fillgaps fills exactly the gaps it may and never alters data", "statement": "fillgaps keeps every valid sample; an interior gap of g missing samples is replaced by the straight line between its neighbours when g<=maxgap and left missing otherwise; leading/trailing gaps are left missing unless extrapFlg, in which case those no longer than maxgap are filled with the nearest valid value; length is unchanged.", "quantifier": "all series, all NaN patterns, all maxgap, both flags", "why_tests_cant": "Exponentially many gap patterns.", "anchors": ["dolfyn/tools/misc.py:fillgaps"]}
{"id": "C24", "title": "interpgaps interpolates linearly in time", "statement": "interpgaps has the same gap selection as fillgaps, with interior values lying on the straight line through the neighbours as a function of t; for evenly spaced t it equals fillgaps; filled values lie between the neighbouring values when t increases.", "quantifier": "all series, all NaN patterns, all t", "why_tests_cant": "Exponentially many gap patterns.", "anchors": ["dolfyn/tools/misc.py:interpgaps"]}
{"id": "C25", "title": "group returns the maximal runs of True", "statement": "The slices returned by group are exactly the maximal runs of consecutive True of length at least min_length, in order.", "quantifier": "all boolean arrays, all min_length", "why_tests_cant": "2^n arrays; failure needs True at the first sample plus a later run.", "anchors": ["dolfyn/tools/misc.py:group"]}
{"id": "C26", "title": "slice1d_along_axis visits every 1-D slice exactly once", "statement": "For an array of two or more dimensions the iterator yields each combination of the remaining indices exactly once, in row-major order, with a full slice along the chosen axis.", "quantifier": "all shapes, all ranks, all axes", "why_tests_cant": "Unbounded rank and extents.", "anchors": ["dolfyn/tools/misc.py:slice1d_along_axis"]}
{"id": "C27", "title": "detrend removes exactly the least-squares line", "statement": "For a series of at least two samples, none missing, the detrended series has zero mean and zero correlation with the sample index, differs from the input by an affine function of the index, is zero for affine input, is idempotent, and is linear in the input.", "quantifier": "all series of length at least 2", "why_tests_cant": "All inputs.", "anchors": ["dolfyn/tools/misc.py:detrend"]}
{"id": "C28", "title": "reshape partitions the series into consecutive bins", "statement": "For an integer n_bin, reshape returns floor(N/n_bin) bins of n_bin samples; bin i holds samples i*n_bin..(i+1)*n_bin-1 in order; only the last N mod n_bin samples are dropped; too-short input is rejected.", "quantifier": "all lengths, all bin sizes", "why_tests_cant": "All sizes.", "anchors": ["dolfyn/binned.py:TimeBinner.reshape"]}
{"id": "C29", "title": "Padding in reshape copies the neighbouring samples", "statement": "With n_pad, the row of bin i is the contiguous stretch of the binned series from floor(n_pad/2) samples before the bin to ceil(n_pad/2) samples after it, zeros beyond the first and last bin.", "quantifier": "all lengths, all n_bin, all n_pad<=n_bin", "why_tests_cant": "All sizes, odd and even pads, boundary bins.", "anchors": ["dolfyn/binned.py:TimeBinner.reshape"]}
{"id": "C30", "title": "Fractional n_bin skips samples without reordering or overlap", "statement": "For a non-integer n_bin the sample indices used are strictly increasing, in range, each bin has int(n_bin) samples and consecutive bins start n_bin samples apart (rounded down).", "quantifier": "all lengths, all rational n_bin>=1", "why_tests_cant": "Rounding boundaries.", "anchors": ["dolfyn/binned.py:TimeBinner.reshape"]}
{"id": "C31", "title": "Bin means and de-meaned data are consistent", "statement": "The bin mean times bin size equals the sum of the bin's samples; demean gives bins summing to zero and adding back the mean restores the data; the mean of each bin lies between its min and max; variance is non-negative and zero exactly for constant bins.", "quantifier": "all series, bin sizes", "why_tests_cant": "All inputs.", "anchors": ["dolfyn/binned.py:TimeBinner.mean", "dolfyn/binned.py:TimeBinner.demean", "dolfyn/binned.py:TimeBinner.var"]}
{"id": "C32", "title": "Binned datasets never mix inconsistent metadata", "statement": "If averaging into an existing output dataset succeeds then every attribute of the input and of the binner is present in the output with the same value, attributes already present were equal, no other attribute changed; any conflict or sample-rate mismatch raises.", "quantifier": "all attribute dictionaries", "why_tests_cant": "All dictionaries.", "anchors": ["dolfyn/binned.py:TimeBinner._check_ds"]}
{"id": "C33", "title": "The frequency vector has one entry per spectral estimate", "statement": "calc_freq returns exactly nfft//2 frequencies k*fs/nfft for k=1..nfft//2, strictly increasing and positive, ending at the Nyquist frequency for even nfft, and has the same length as the spectra returned by psd.", "quantifier": "all nfft, fs", "why_tests_cant": "Odd/even sizes, sign of the Nyquist bin.", "anchors": ["dolfyn/tools/psd.py:psd_freq", "dolfyn/binned.py:TimeBinner.calc_freq"]}
{"id": "C34", "title": "Welch segments stay inside the data and their number is the divisor", "statement": "For every series length and nfft, the spectral estimator only uses segments that lie inside the series, consecutive segments overlap by at least 50%, and the number of segments summed equals the number of ensembles it divides by.", "quantifier": "all lengths, nfft", "why_tests_cant": "Integer rounding for every (length, nfft) pair.", "anchors": ["dolfyn/tools/psd.py:stepsize", "dolfyn/tools/psd.py:cpsd"]}
{"id": "C35", "title": "Power spectra are non-negative, quadratic and blind to trends", "statement": "psd is >=0 for every input, multiplies by c^2 when the data are multiplied by c, does not change when an affine trend is added to the data, and is zero for affine data.", "quantifier": "all series, windows, nfft, step", "why_tests_cant": "All inputs.", "anchors": ["dolfyn/tools/psd.py:psd", "dolfyn/tools/psd.py:cpsd"]}
{"id": "C36", "title": "Noise-corrected spectra are never negative", "statement": "calc_psd_base with a noise level returns values >= 0, only lowers the spectrum, and leaves it unchanged for zero noise.", "quantifier": "all spectra, all noise levels", "why_tests_cant": "All inputs.", "anchors": ["dolfyn/binned.py:TimeBinner.calc_psd_base"]}
{"id": "C37", "title": "Coherence lies between 0 and 1", "statement": "For two series of equal length and zero noise, the (not debiased) coherence is in [0,1], equals 1 for proportional signals and is unchanged when either signal is rescaled.", "quantifier": "all series, windows, nfft with more than two segments", "why_tests_cant": "Cauchy-Schwarz over all inputs.", "anchors": ["dolfyn/tools/psd.py:coherence"]}
{"id": "C38", "title": "Phase angle compares the two signals", "statement": "phase_angle(a,b) averages over the segments the unit phasor between the two signals: it is 1 at every frequency for a signal and itself, -1 for a signal and its negative, and swapping the signals conjugates it.", "quantifier": "all series", "why_tests_cant": "All inputs.", "anchors": ["dolfyn/tools/psd.py:phase_angle"]}
{"id": "C39", "title": "Speed and direction describe the velocity", "statement": "U_mag is the horizontal speed, U_dir is in [0,360) and in the earth frame is the compass direction: (U_mag sin U_dir, U_mag cos U_dir) = (east, north); in other frames it is the clockwise angle from the first axis.", "quantifier": "all velocities, all frames", "why_tests_cant": "Branch cut of the angle over a continuum.", "anchors": ["dolfyn/velocity.py:Velocity.U_mag", "dolfyn/velocity.py:Velocity.U_dir"]}
{"id": "C40", "title": "Turbulence intensity below the threshold is not reported", "statement": "calc_ti returns no value (mask/NaN) for bins whose mean speed is below thresh, and sqrt(variance-noise^2)/mean elsewhere.", "quantifier": "all series, all thresholds", "why_tests_cant": "All inputs.", "anchors": ["dolfyn/velocity.py:VelBinner.calc_ti"]}
{"id": "C41", "title": "TKE and stress are consistent second moments", "statement": "With zero noise, tke components are >=0, the total tke is half their sum, |stress_ij|^2 <= tke_i*tke_j for every pair, both are unchanged when a constant (or, with detrend, an affine trend) is added to the data, and the noise option subtracts exactly noise^2.", "quantifier": "all series, all bins", "why_tests_cant": "Cauchy-Schwarz over all inputs.", "anchors": ["dolfyn/velocity.py:VelBinner.calc_tke", "dolfyn/adv/turbulence.py:ADVBinner.calc_stress", "dolfyn/velocity.py:Velocity.tke"]}
{"id": "C42", "title": "Dissipation from an ideal inertial-range spectrum is recovered", "statement": "If the spectrum is exactly alpha*eps^(2/3)*U^(2/3)*omega^(-5/3) inside the frequency range, the LT83 estimator returns eps, in Hz and in rad/s; the estimate is >=0 and scales as power 3/2 of the spectrum.", "quantifier": "all eps, U > 0, all frequency grids with a point in the range", "why_tests_cant": "Real identity for all grids.", "anchors": ["dolfyn/adv/turbulence.py:ADVBinner.calc_epsilon_LT83", "dolfyn/adp/turbulence.py:ADPBinner.calc_dissipation_LT83"]}
{"id": "C43", "title": "Structure-function dissipation uses the r^(2/3) law", "statement": "If the structure function is exactly 2.1*eps^(2/3)*r^(2/3)+N then calc_dissipation_SF returns eps.", "quantifier": "all eps, N, range grids", "why_tests_cant": "Real identity for all grids.", "anchors": ["dolfyn/adp/turbulence.py:ADPBinner.calc_dissipation_SF"]}
{"id": "C44", "title": "Beam-variance stresses recover the Reynolds stress", "statement": "For beam velocities that are the projections of (u,v,w) on the instrument's own beam geometry with homogeneous second moments and zero tilt, calc_stress_4beam returns u'w' and v'w', and calc_stress_5beam returns u'u', v'v', w'w', u'w', v'w'.", "quantifier": "all series, all beam angles, both makes, both orientations", "why_tests_cant": "Real identity for all statistics.", "anchors": ["dolfyn/adp/turbulence.py:ADPBinner.calc_stress_4beam", "dolfyn/adp/turbulence.py:ADPBinner.calc_stress_5beam", "dolfyn/adp/turbulence.py:ADPBinner._check_orientation"]}
{"id": "C45", "title": "Shear estimates are exact for linear profiles and sized like their range", "statement": "Every differencing style returns the slope exactly for a velocity linear in range, returns as many values as range coordinates it reports, and calc_dudz of a down-looking instrument is the negated derivative.", "quantifier": "all profiles, all evenly spaced ranges, all styles, both orientations", "why_tests_cant": "All lengths.", "anchors": ["dolfyn/adp/turbulence.py:_diffz_first", "dolfyn/adp/turbulence.py:_diffz_centered", "dolfyn/adp/turbulence.py:_diffz_centered_extended", "dolfyn/adp/turbulence.py:ADPBinner.calc_dudz"]}
{"id": "C46", "title": "Range and spike masks flag exactly the offending samples", "statement": "range_limit is True exactly for samples not strictly inside the interval, including missing ones; spike_thresh is True exactly where the jump from the previous sample (from 0 at the start) exceeds the threshold; both have the length of the data.", "quantifier": "all series with missing values, all limits", "why_tests_cant": "All inputs.", "anchors": ["dolfyn/adv/clean.py:range_limit", "dolfyn/adv/clean.py:spike_thresh"]}
{"id": "C47", "title": "clean_fill touches only masked samples and reaches all of them", "statement": "After clean_fill with a mask, unmasked valid samples are unchanged and every masked sample lies in some window handed to the interpolator.", "quantifier": "all series, masks, npt", "why_tests_cant": "All NaN patterns and window sizes.", "anchors": ["dolfyn/adv/clean.py:clean_fill", "dolfyn/adv/clean.py:_interp_nan"]}
{"id": "C48", "title": "Ensemble-mean filling changes only masked samples", "statement": "fill_nan_ensemble_mean keeps the length and every unmasked sample, replaces a masked sample by the mean of the valid samples of its window (the last, possibly short, window included), and leaves it missing only when the whole window is missing.", "quantifier": "all series, masks, window sizes not longer than the data", "why_tests_cant": "All NaN patterns, remainder sizes.", "anchors": ["dolfyn/adv/clean.py:fill_nan_ensemble_mean"]}
{"id": "C49", "title": "correlation_filter removes exactly the low-correlation beam samples and restores the frame", "statement": "In beam coordinates exactly the samples with correlation <= thresh are removed from vel, corr and amp (and the 5th beam from its own correlation), and the dataset returns in its original frame with the other samples unchanged.", "quantifier": "all datasets, thresholds", "why_tests_cant": "All inputs.", "anchors": ["dolfyn/adp/clean.py:correlation_filter"]}
{"id": "C50", "title": "nan_beyond_surface removes exactly the contaminated cells", "statement": "Cells with range beyond depth*cos(beam angle) - cell size (measured from the transducer) are replaced and all others kept; a beam angle given by the user in degrees means the same as the one in the file; echosounder cells are removed only beyond the depth itself.", "quantifier": "all depths, ranges, angles", "why_tests_cant": "All inputs.", "anchors": ["dolfyn/adp/clean.py:nan_beyond_surface"]}
{"id": "C51", "title": "set_range_offset is additive and recorded", "statement": "set_range_offset(a) then set_range_offset(b) equals set_range_offset(a+b): every range coordinate moves by the sum and h_deploy holds the sum; non-range coordinates are untouched.", "quantifier": "all offsets, all coordinate sets", "why_tests_cant": "All inputs.", "anchors": ["dolfyn/adp/clean.py:set_range_offset"]}
{"id": "C52", "title": "find_surface discards weak echoes for every ping", "statement": "find_surface examines every time step and reports no depth for a ping whose echo never rises by thresh; for profiles with any number of cells the second estimate is the last cell before which the echo decreases.", "quantifier": "all numbers of cells and pings", "why_tests_cant": "Integer wrap-around at 256 cells; index-axis mixups.", "anchors": ["dolfyn/adp/clean.py:find_surface"]}
{"id": "C53", "title": "Depth from pressure is increasing in pressure", "statement": "find_surface_from_P gives depth 0 at zero pressure, strictly increasing with pressure for physical temperature and salinity, shifted exactly by h_deploy.", "quantifier": "all pressures >= 0, temperatures, salinities in range", "why_tests_cant": "Real inequality.", "anchors": ["dolfyn/adp/clean.py:find_surface_from_P"]}
{"id": "C54", "title": "Rotation-induced velocity is omega x r", "statement": "calc_velrot returns the cross product of angular rate and the lever arm (head position minus IMU position); it is perpendicular to both, linear in both, zero at the IMU, and rotates consistently when expressed in earth coordinates.", "quantifier": "all lever arms, rates, orientation matrices", "why_tests_cant": "Real identity.", "anchors": ["dolfyn/adv/motion.py:CalcMotion.calc_velrot"]}
{"id": "C55", "title": "Motion correction is applied exactly once and adds head motion", "statement": "correct_motion rejects data already corrected, data with missing IMU samples or without IMU; on success vel = vel_raw + velrot + velacc in the output frame for both to_earth settings, and the corrected velocity rotated to earth is the same for both settings.", "quantifier": "all datasets", "why_tests_cant": "All inputs; real identity.", "anchors": ["dolfyn/adv/motion.py:correct_motion"]}
{"id": "C56", "title": "Duty-cycle check rejects wrong intervals", "statement": "When a duty cycle is declared, data whose mean burst interval differs from the declared one by more than a second, or whose intervals vary by more than two seconds, are rejected.", "quantifier": "all intervals", "why_tests_cant": "All inputs; the condition is contradictory.", "anchors": ["dolfyn/adv/motion.py:CalcMotion._check_duty_cycle"]}
{"id": "C57", "title": "File names get exactly one right extension", "statement": "_check_file_ext accepts names whose last extension is the wanted one unchanged, rejects other extensions, appends the extension to names without a dot, and is idempotent.", "quantifier": "all path strings", "why_tests_cant": "All strings.", "anchors": ["dolfyn/io/api.py:_check_file_ext"]}
{"id": "C58", "title": "File type detection is determined by the magic bytes", "statement": "_get_filetype depends only on the first 40 bytes; the RDI/signature/nortek answers are mutually exclusive, and unknown files are refused by read with no parser called.", "quantifier": "all byte strings", "why_tests_cant": "All files.", "anchors": ["dolfyn/io/base.py:_get_filetype", "dolfyn/io/api.py:read"]}
{"id": "C59", "title": "Trailing-NaN removal only removes trailing NaN samples", "statement": "_handle_nan removes from the end of every time-dependent variable exactly the trailing samples whose time or IMU data are missing, and no sample with valid data.", "quantifier": "all series, all NaN patterns", "why_tests_cant": "All NaN patterns.", "anchors": ["dolfyn/io/base.py:_handle_nan"]}
{"id": "C60", "title": "A user-supplied userdata file name is honoured", "statement": "read(fname, userdata='x.json') uses the metadata in x.json; userdata=True uses <base>.userdata.json or <fname>.userdata.json; userdata=False uses none.", "quantifier": "all file names, all file systems", "why_tests_cant": "All file-system states.", "anchors": ["dolfyn/io/base.py:_find_userdata"]}
{"id": "C61", "title": "save followed by load restores variable names and complex data", "statement": "After save and load the set of variables is the original one, complex variables are rejoined from their real and imaginary parts, no helper attribute remains, and encoding options supplied by the user take precedence.", "quantifier": "all datasets (any names, any number of complex variables)", "why_tests_cant": "All name sets, including name clashes and one-character names.", "anchors": ["dolfyn/io/api.py:save", "dolfyn/io/api.py:load"]}
{"id": "C62", "title": "BCD clock bytes decode to their decimal digits", "statement": "_bcd2char maps every valid packed-BCD byte to its two-digit value and is injective there, saturating other bytes to at most 99.", "quantifier": "all bytes", "why_tests_cant": "Finite, but stated for every byte.", "anchors": ["dolfyn/io/nortek.py:_bcd2char", "dolfyn/io/nortek.py:_NortekReader.rd_time"]}
{"id": "C63", "title": "Nortek block checksums accept exactly intact blocks", "statement": "A data block passes checksum verification exactly when its stored checksum equals 0xb58c plus the sum of its words modulo 2^16; in particular a block with one altered word is rejected.", "quantifier": "all blocks", "why_tests_cant": "All byte strings.", "anchors": ["dolfyn/io/nortek.py:_NortekReader.checksum"]}
{"id": "C64", "title": "Both byte orders of Nortek files are recognised", "statement": "The reader determines the byte order from the hardware-configuration header for little- and big-endian files and refuses other files.", "quantifier": "all files", "why_tests_cant": "All byte strings.", "anchors": ["dolfyn/io/nortek.py:_NortekReader.__init__"]}
{"id": "C65", "title": "Resynchronisation finds the next block start", "statement": "findnext leaves the read position at a sync byte located at an even distance from where it started, before the end of file; with checksum verification the preceding words have a valid checksum; no earlier such position is skipped.", "quantifier": "all byte streams and positions", "why_tests_cant": "All byte strings.", "anchors": ["dolfyn/io/nortek.py:_NortekReader.findnext"]}
{"id": "C66", "title": "IMU axis remapping is a rotation", "statement": "The remapping of the Microstrain IMU axes to the ADV axes is a proper rotation (it keeps lengths and handedness) for vectors, and maps an orthonormal orientation matrix to an orthonormal matrix consistent with the remapped vectors.", "quantifier": "all vectors and matrices", "why_tests_cant": "Real identity.", "anchors": ["dolfyn/io/nortek.py:_NortekReader.sci_microstrain"]}
{"id": "C67", "title": "nens selects the requested samples", "statement": "read_nortek(nens=(start,stop)) returns the samples start..stop-1 of the full file; nens=n returns the first n.", "quantifier": "all files, all ranges", "why_tests_cant": "All histories.", "anchors": ["dolfyn/io/nortek.py:_NortekReader.__init__", "dolfyn/io/nortek.py:_NortekReader.readfile"]}
{"id": "C68", "title": "Configuration bits report the burst mode", "statement": "The burst_mode field of the Nortek user configuration is True exactly when the corresponding control bit says so.", "quantifier": "all configuration words", "why_tests_cant": "All words.", "anchors": ["dolfyn/io/nortek.py:_NortekReader.read_user_cfg"]}
{"id": "C69", "title": "AD2CP blocks with a bad checksum are rejected", "statement": "_DataDef.read returns data only if the stored checksum matches the words of the block modulo 2^16, consumes exactly the declared number of bytes and splits the values into fields whose sizes follow the declared shapes.", "quantifier": "all block layouts, all byte strings", "why_tests_cant": "All layouts and byte strings.", "anchors": ["dolfyn/io/nortek2_defs.py:_DataDef.read"]}
{"id": "C70", "title": "Bit-field extraction returns the packed value", "statement": "_BitIndexer slices and single-bit access return the integer made of the selected bits; packing fields into a word and extracting them returns the fields; beams/coordinate-system words decode to the encoded triple.", "quantifier": "all words, all bit ranges", "why_tests_cant": "All words.", "anchors": ["dolfyn/io/nortek2_lib.py:_BitIndexer", "dolfyn/io/nortek2_lib.py:_beams_cy_int2dict"]}
{"id": "C71", "title": "The AD2CP index numbers ensembles monotonically", "statement": "In the index built for a file, for each data id the hardware ensemble numbers never decrease in file order, every record gets a position after the previous one, and the software ensemble counter increases by at most one per record.", "quantifier": "all record sequences", "why_tests_cant": "All histories (counter resets, wrap, missing pings).", "anchors": ["dolfyn/io/nortek2_lib.py:_create_index"]}
{"id": "C72", "title": "Uniform configuration collapse", "statement": "_collapse returns the common value for uniform vectors, otherwise a value that occurs in the vector with maximal frequency.", "quantifier": "all vectors", "why_tests_cant": "All inputs.", "anchors": ["dolfyn/io/nortek2_lib.py:_collapse"]}
{"id": "C73", "title": "Angle averages are circular means", "statement": "_reduce_by_average_angle gives a direction halfway between the two headings on the shorter arc, within the 0-360 range used for headings.", "quantifier": "all heading pairs", "why_tests_cant": "Wrap-around at 0/360.", "anchors": ["dolfyn/io/nortek2_lib.py:_reduce_by_average_angle"]}
{"id": "C74", "title": "TRDI ensemble numbers are the encoded 24-bit numbers", "statement": "The ensemble number is lsb + 65536*msb, so distinct recorded (lsb, msb) pairs give distinct, increasing numbers.", "quantifier": "all (lsb, msb) pairs", "why_tests_cant": "Needs more than 65535 ensembles.", "anchors": ["dolfyn/io/rdi.py:_RDIReader.read_var"]}
{"id": "C75", "title": "TRDI positions and bottom-track distances decode correctly", "statement": "Binary angles decode to degrees in [-180,180] inverting the encoding; bottom-track distance is the 24-bit count in cm.", "quantifier": "all words", "why_tests_cant": "All words.", "anchors": ["dolfyn/io/rdi.py:_RDIReader.read_bottom"]}
{"id": "C76", "title": "Declination in TRDI files is applied once", "statement": "Whatever magnetic variation the file carries, supplying a declination through userdata yields earth velocities with exactly that declination.", "quantifier": "all angle pairs, all data", "why_tests_cant": "Real identity.", "anchors": ["dolfyn/io/rdi.py:_set_rdi_declination"]}
{"id": "C77", "title": "No recorded TRDI ensemble is lost", "statement": "Every complete ensemble of a well-formed file, including the last one, is read.", "quantifier": "all files made of consecutive well-formed ensembles", "why_tests_cant": "All lengths.", "anchors": ["dolfyn/io/rdi.py:_RDIReader.checkheader", "dolfyn/io/rdi.py:_RDIReader.search_buffer"]}
{"id": "C78", "title": "TRDI invalid velocities are marked missing", "statement": "Every velocity variable read from the file has its invalid marker (-32768 counts) replaced by NaN.", "quantifier": "all counts", "why_tests_cant": "All inputs.", "anchors": ["dolfyn/io/rdi_defs.py:_ensemble.clean_data"]}
{"id": "C79", "title": "Duplicate GPS fixes removal keeps one sample per fix", "statement": "_remove_gps_duplicates keeps the first occurrence of every GPS time, in order, with all GPS variables subset consistently.", "quantifier": "all sequences", "why_tests_cant": "All inputs.", "anchors": ["dolfyn/io/rdi.py:_remove_gps_duplicates"]}
{"id": "C80", "title": "Beam-frame range cells are evenly spaced from the blanking distance", "statement": "Range coordinates computed by the readers are strictly increasing with constant step equal to the cell size, starting one cell (Nortek) or the recorded bin-1 distance (TRDI) from the transducer.", "quantifier": "all cell counts, cell sizes, blanking distances", "why_tests_cant": "All inputs.", "anchors": ["dolfyn/io/nortek.py:_NortekReader.sci_awac_profile", "dolfyn/io/nortek2.py:_reduce", "dolfyn/io/rdi.py:_RDIReader.cleanup"]}
{"id": "C81", "title": "Each rotation applies the documented geometry to every sample", "statement": "Going one frame up, every vector sample is transformed by the right matrix: beam->inst multiplies by the beam matrix; inst->earth combines the instrument axes (rows of the orientation matrix of the same time) with the instrument components, with y and z negated for a Signature mounted downwards and the error velocity of a TRDI left alone; earth->principal gives the component along the principal heading, the component 90 degrees to its left, and the unchanged rest.", "quantifier": "all instrument families, datasets, variables, times, cells", "why_tests_cant": "All real matrices and vectors; sign and transpose errors survive round-trip tests.", "anchors": ["dolfyn/rotate/base.py:beam2inst", "dolfyn/rotate/vector.py:_inst2earth", "dolfyn/rotate/vector.py:_earth2principal", "dolfyn/rotate/signature.py:_inst2earth", "dolfyn/rotate/rdi.py:_inst2earth"]}
{"id": "C82", "title": "Principal heading lies in the documented range", "statement": "calc_principal_heading returns a heading in [0,180] in tidal mode and in [0,360) otherwise.", "quantifier": "all velocity series", "why_tests_cant": "All real inputs.", "anchors": ["dolfyn/rotate/api.py:calc_principal_heading"]}
{"id": "C83", "title": "Trailing missing orientations are continued from the last valid one", "statement": "When the last heading, pitch and roll of a Nortek Vector file are all missing, the series used for the orientation matrix equals the original up to the last time at which all three are valid and repeats that time's values afterwards; when they are not all missing at the end, nothing is changed.", "quantifier": "all series, all patterns of missing values", "why_tests_cant": "All lengths and patterns.", "anchors": ["dolfyn/rotate/vector.py:_calc_omat"]}
{"id": "C84", "title": "detrend with missing samples removes the trend of the valid samples", "statement": "When some samples are missing, detrend subtracts from the valid samples the line fitted to them (so valid samples that lie on a line become zero) and leaves missing samples missing.", "quantifier": "all series, all patterns of missing samples", "why_tests_cant": "All real inputs and patterns.", "anchors": ["dolfyn/tools/misc.py:detrend"]}
{"id": "C85", "title": "Bin spectra are computed from the samples of the record only", "statement": "Each row of calc_psd_base is a spectrum of measured samples: a constant record has zero power in every bin.", "quantifier": "all records, bin sizes, fft sizes", "why_tests_cant": "All lengths and values.", "anchors": ["dolfyn/binned.py:TimeBinner.calc_psd_base", "dolfyn/binned.py:TimeBinner.reshape"]}
{"id": "C86", "title": "The integral of the spectrum is the variance", "statement": "For a single boxcar segment, the sum of the spectral estimates times the frequency resolution equals the variance of the detrended samples.", "quantifier": "all series, all lengths", "why_tests_cant": "Parseval's identity over all real series and all lengths.", "anchors": ["dolfyn/tools/psd.py:psd", "dolfyn/tools/psd.py:cpsd"]}
{"id": "C87", "title": "Cross spectra keep the order of their arguments", "statement": "cpsd(a,b) and cpsd_quasisync(a,b) average fft(a) times the conjugate of fft(b) over the segments; swapping the arguments conjugates the result.", "quantifier": "all pairs of series, windows, segment lengths", "why_tests_cant": "All real series.", "anchors": ["dolfyn/tools/psd.py:cpsd", "dolfyn/tools/psd.py:cpsd_quasisync"]}
{"id": "C88", "title": "The bin size given to calc_psd_base is used", "statement": "calc_psd_base with an explicit n_bin returns, for every bin of n_bin samples, the spectrum of that bin.", "quantifier": "all records and bin sizes", "why_tests_cant": "All lengths and overrides.", "anchors": ["dolfyn/binned.py:TimeBinner.calc_psd_base"]}
{"id": "C89", "title": "The total kinetic energy needs all its components", "statement": "tke is half the sum of the three components and is missing when one of them is missing.", "quantifier": "all values, all patterns of missing components", "why_tests_cant": "All values.", "anchors": ["dolfyn/velocity.py:Velocity.tke"]}
{"id": "C90", "title": "ADV structure-function dissipation recovers the r^(2/3) law", "statement": "If the structure function at every lag used is 2.1*eps^(2/3)*(U*lag/fs)^(2/3), calc_epsilon_SF returns eps; it raises exactly when a lag is zero or longer than the bin.", "quantifier": "all series, speeds, sample rates, lag ranges", "why_tests_cant": "All real series and ranges.", "anchors": ["dolfyn/adv/turbulence.py:ADVBinner.calc_epsilon_SF"]}
{"id": "C91", "title": "The structure-function fit uses the separations in r_range", "statement": "calc_dissipation_SF fits D(z,r) over exactly the separations r (multiples of the bin size) with r_range[0] <= r <= r_range[1].", "quantifier": "all bin sizes and ranges", "why_tests_cant": "All pairs of rationals.", "anchors": ["dolfyn/adp/turbulence.py:ADPBinner.calc_dissipation_SF"]}
{"id": "C92", "title": "The cascade slope check returns the slope of a power law", "statement": "If the spectrum in the frequency range is 10^b f^m, check_turbulence_cascade_slope returns (m, b).", "quantifier": "all slopes, intercepts, frequency grids with two points in the range", "why_tests_cant": "Real identity for all grids.", "anchors": ["dolfyn/adv/turbulence.py:ADVBinner.check_turbulence_cascade_slope"]}
{"id": "C93", "title": "The friction velocity of a linear stress profile is recovered", "statement": "If u'w' = +-ustar^2 (1 - z/H) at the selected depths, calc_ustar_fit returns ustar.", "quantifier": "all depths, signs, depth selections", "why_tests_cant": "Real identity for all profiles.", "anchors": ["dolfyn/adp/turbulence.py:ADPBinner.calc_ustar_fit"]}
{"id": "C94", "title": "The Doppler noise level of a white spectrum", "statement": "For a spectrum equal to N between the characteristic and the Nyquist frequency, calc_doppler_noise returns s with N*f_c <= s^2 <= N*f_N; the level is the same whether the spectrum is per Hz or per rad/s.", "quantifier": "all noise densities, grids, fractions", "why_tests_cant": "Real inequality for all grids.", "anchors": ["dolfyn/adv/turbulence.py:ADVBinner.calc_doppler_noise", "dolfyn/adp/turbulence.py:ADPBinner.calc_doppler_noise"]}
{"id": "C95", "title": "The integral length scale is U times the first lag below 1/e", "statement": "calc_L_int returns U times the first lag time at which the autocovariance is at most 1/e of its value at lag 0, and 0 when it never is.", "quantifier": "all autocovariances, speeds, sample rates", "why_tests_cant": "All real series.", "anchors": ["dolfyn/adv/turbulence.py:ADVBinner.calc_L_int"]}
{"id": "C96", "title": "TE01 dissipation of ideal spectra is recovered", "statement": "If the horizontal and vertical spectra follow TE01 equation 6 in the frequency range, calc_epsilon_TE01 returns eps, with the spectra per rad/s or per Hz.", "quantifier": "all eps, U, integral values, grids with a point in the range", "why_tests_cant": "Real identity for all grids.", "anchors": ["dolfyn/adv/turbulence.py:ADVBinner.calc_epsilon_TE01"]}
{"id": "C97", "title": "The beam angle given by the caller is the one used", "statement": "calc_stress_4beam and calc_stress_5beam called with beam_angle=a compute the stresses for beams inclined by a.", "quantifier": "all datasets with and without a beam_angle attribute", "why_tests_cant": "All angles and datasets.", "anchors": ["dolfyn/adp/turbulence.py:ADPBinner._stress_func_warnings"]}
{"id": "C98", "title": "Gaps longer than maxgap are not interpolated", "statement": "clean_fill(..., maxgap=m) interpolates gaps of at most m consecutive missing samples completely and leaves longer gaps missing.", "quantifier": "all series, gap lengths, m", "why_tests_cant": "All NaN patterns.", "anchors": ["dolfyn/adv/clean.py:clean_fill", "dolfyn/adv/clean.py:_interp_nan"]}
{"id": "C99", "title": "Separate-probe correction uses the motion of each receiver along its own beam", "statement": "correct_motion(separate_probes=True) corrects each beam by the velocity of its own receiver along that beam; a rotation that moves no receiver vertically gives no vertical correction.", "quantifier": "all orientation and beam matrices, head positions, rotation rates", "why_tests_cant": "The array contraction is right only for special inputs.", "anchors": ["dolfyn/adv/motion.py:correct_motion", "dolfyn/adv/motion.py:_calc_probe_pos"]}
{"id": "C100", "title": "velacc is the integral of the acceleration without its mean", "statement": "With both filter frequencies zero, velacc in earth coordinates is the trapezoidal integral over time of the earth-frame acceleration less its mean; it starts at zero and a constant acceleration (gravity) contributes nothing.", "quantifier": "all acceleration series, sampling rates, orientations", "why_tests_cant": "Closed form for every series length.", "anchors": ["dolfyn/adv/motion.py:CalcMotion.calc_velacc", "dolfyn/adv/motion.py:CalcMotion.reshape"]}
{"id": "C101", "title": "Duty-cycled data are integrated burst by burst, with the documented filter frequencies", "statement": "When a duty cycle is declared, correct_motion succeeds only if the record is made of whole bursts; filter frequencies given as arguments take precedence over attributes, attributes over the defaults (0.03 Hz, one third of it for velocity).", "quantifier": "all burst lengths and record lengths, all combinations of arguments and attributes", "why_tests_cant": "All lengths.", "anchors": ["dolfyn/adv/motion.py:CalcMotion._check_filtfreqs", "dolfyn/adv/motion.py:CalcMotion.calc_velacc"]}
{"id": "C102", "title": "A userdata file's contents reach the dataset under their present names", "statement": "Reading a userdata file renames body2head_rotmat and body2head_vec to inst2head_rotmat and inst2head_vec, turns the names for the identity into the 3x3 identity matrix, and leaves every other entry as it is in the file.", "quantifier": "all JSON dictionaries", "why_tests_cant": "All combinations of keys, old and new names together included.", "anchors": ["dolfyn/io/base.py:_read_userdata"]}
{"id": "C103", "title": "Saving a dataset does not change it", "statement": "After save the caller's dataset has the variables, values and precision it had before.", "quantifier": "all datasets", "why_tests_cant": "All combinations of variable types.", "anchors": ["dolfyn/io/api.py:save"]}
{"id": "C104", "title": "A Vector file is read sample by sample", "statement": "For a file made of whole blocks (perhaps cut off in a velocity block) the samples are the velocity blocks in file order, each system-data block belongs to the next sample and each IMU block to the sample before it.", "quantifier": "all sequences of blocks, both byte orders", "why_tests_cant": "All interleavings of block types and all lengths.", "anchors": ["dolfyn/io/nortek.py:_NortekReader.readfile", "dolfyn/io/nortek.py:_NortekReader.readnext", "dolfyn/io/nortek.py:_NortekReader.read_vec_data", "dolfyn/io/nortek.py:_NortekReader.read_vec_sysdata", "dolfyn/io/nortek.py:_NortekReader.read_microstrain"]}
{"id": "C105", "title": "Vector blocks decode to the values the instrument stored", "statement": "Velocities, pressure, heading, pitch, roll, battery, sound speed and temperature equal the signed or unsigned integers in the block times their documented unit.", "quantifier": "all blocks, both byte orders, all stored values, negative ones included", "why_tests_cant": "All byte values.", "anchors": ["dolfyn/io/nortek.py:_NortekReader.read_vec_data", "dolfyn/io/nortek.py:_NortekReader.sci_vec_data", "dolfyn/io/nortek.py:_NortekReader.read_vec_sysdata", "dolfyn/io/nortek_defs.py:vec_data"]}
{"id": "C106", "title": "AWAC profiles decode to the values the instrument stored", "statement": "Heading, pitch, roll, pressure and temperature of an AWAC profile, and the velocity of every cell and beam, equal the stored integers times their unit.", "quantifier": "all profiles, all numbers of cells and beams", "why_tests_cant": "All byte values, all cell counts.", "anchors": ["dolfyn/io/nortek.py:_NortekReader.read_awac_profile", "dolfyn/io/nortek_defs.py:awac_profile"]}
{"id": "C107", "title": "Every Vector sample gets the time of the instrument's clock", "statement": "When the clock times recorded in a burst lie on a line (constant sample rate), every sample of the burst gets the time of that line, however few times were recorded.", "quantifier": "all records, all burst lengths, all patterns of recorded times", "why_tests_cant": "All patterns of system data.", "anchors": ["dolfyn/io/nortek.py:_NortekReader.sci_vec_sysdata"]}
{"id": "C108", "title": "orientation_down reports the status bit", "statement": "At every sample with system data orientation_down is the orientation bit of that status byte.", "quantifier": "all sequences of status bytes and gaps", "why_tests_cant": "All sequences.", "anchors": ["dolfyn/io/nortek.py:_NortekReader.sci_vec_sysdata"]}
{"id": "C109", "title": "Documented block types do not disturb the samples", "statement": "Blocks the reader lists in its table of block types, whatever their order, neither end the reading nor change which samples are returned.", "quantifier": "all files made of documented blocks", "why_tests_cant": "All sequences of blocks.", "anchors": ["dolfyn/io/nortek.py:_NortekReader.fun_map", "dolfyn/io/nortek.py:_NortekReader.read_awac_waves", "dolfyn/io/nortek.py:_NortekReader.read_microstrain"]}
{"id": "C110", "title": "Each Signature ensemble lands in its own column", "statement": "read_signature(nens=(start, stop)) stores the values of every record of ensemble e, start <= e < stop, in column e - start, for every kind of record, whatever text records lie between them, and stores nothing else.", "quantifier": "all files of complete ensembles, all ranges, all configurations", "why_tests_cant": "All files and ranges.", "anchors": ["dolfyn/io/nortek2.py:_Ad2cpReader.readfile", "dolfyn/io/nortek2.py:_Ad2cpReader._advance_ens_count", "dolfyn/io/nortek2_lib.py:get_index"]}
{"id": "C111", "title": "Raw altimeter pings can be read", "statement": "A raw altimeter record with n samples is read with exactly these samples and fields, for every n and with or without AHRS data.", "quantifier": "all sample counts, all configurations of altimeter records", "why_tests_cant": "All counts.", "anchors": ["dolfyn/io/nortek2.py:_Ad2cpReader.readfile", "dolfyn/io/nortek2_defs.py:_calc_burst_struct"]}
{"id": "C112", "title": "What is read depends only on the data file", "statement": "Reading a Signature file gives the same data whether or not an index file is already there.", "quantifier": "all files, all index files", "why_tests_cant": "Histories: an earlier file of the same name.", "anchors": ["dolfyn/io/nortek2_lib.py:get_index"]}
{"id": "C113", "title": "crop_ensembles keeps exactly the ensembles asked for", "statement": "crop_ensembles(infile, outfile, [a, b]) writes the head of the file followed by the bytes of the ensembles a <= e < b, for every a <= b up to the number of ensembles.", "quantifier": "all files, all ranges", "why_tests_cant": "All ranges.", "anchors": ["dolfyn/io/nortek2_lib.py:crop_ensembles"]}
{"id": "C114", "title": "E_coh is the size of the Reynolds stress vector", "statement": "E_coh is non-negative, its square is the sum of the squares of u'v', u'w' and v'w', it is at least the magnitude of each of them and 0 only when all are 0.", "quantifier": "all stresses", "why_tests_cant": "All values.", "anchors": ["dolfyn/velocity.py:Velocity.E_coh"]}
{"id": "C115", "title": "Small tilts are corrected to first order in the five-beam stresses", "statement": "For an instrument whose pitch or roll is small, in a flow with the same second moments at every beam, the stresses of calc_stress_5beam differ from the true ones (less the noise) by at most a constant times the square of the tilt.", "quantifier": "all second moments, all beam angles, all tilts", "why_tests_cant": "A numerical test cannot separate first from second order for every flow.", "anchors": ["dolfyn/adp/turbulence.py:ADPBinner.calc_stress_5beam", "dolfyn/adp/turbulence.py:ADPBinner._check_orientation"]}
{"id": "C116", "title": "TRDI ensembles show their own values", "statement": "The value of a variable at an ensemble of a TRDI file comes from that ensemble; if the ensemble has no block with the variable, the value is missing.", "quantifier": "all files, all ensembles, all variables", "why_tests_cant": "All sequences of blocks.", "anchors": ["dolfyn/io/rdi.py:_RDIReader.load_data", "dolfyn/io/rdi.py:_RDIReader.read_dat", "dolfyn/io/rdi_defs.py:_ensemble"]}
{"id": "C117", "title": "Damaged TRDI ensembles are recognised", "statement": "An ensemble whose checksum does not match its bytes is not returned as data.", "quantifier": "all ensembles, all damages", "why_tests_cant": "All damages.", "anchors": ["dolfyn/io/rdi.py:_RDIReader.search_buffer", "dolfyn/io/rdi.py:_RDIReader.read_buffer"]}
{"id": "C118", "title": "Reading a TRDI file without nens reads the whole file", "statement": "read_rdi(file) without nens returns as many ensembles as read_rdi(file, nens=n) does for every n at least the number of ensembles in the file.", "quantifier": "all files made of consecutive well-formed ensembles", "why_tests_cant": "All numbers and lengths of ensembles; the count is an estimate from the distances of the first ones.", "anchors": ["dolfyn/io/rdi.py:_RDIReader.__init__", "dolfyn/io/rdi.py:_RDIReader.init_data"]}
{"id": "C119", "title": "TRDI variables are the recorded numbers", "statement": "Each variable at each ensemble read is the integer at its place in the ensemble's block (PD0 manual), scaled by its unit, and the time is that of the instrument's clock at 1/100 s, missing if it is no date.", "quantifier": "all files, firmware versions, cell counts, orders of blocks", "why_tests_cant": "All bytes.", "anchors": ["dolfyn/io/rdi.py:_RDIReader.read_var", "dolfyn/io/rdi.py:_RDIReader.read_vel", "dolfyn/io/rdi.py:_RDIReader.read_bottom", "dolfyn/io/rdi.py:_RDIReader.read_dat"]}
{"id": "C120", "title": "A bad navigation block costs no other data", "statement": "If the date in the navigation block of one ensemble is not valid (e.g. no GPS fix yet), the file is still read and the time is missing at that ensemble.", "quantifier": "all files, all navigation blocks", "why_tests_cant": "All contents.", "anchors": ["dolfyn/io/rdi.py:_RDIReader.read_vmdas"]}
{"id": "C121", "title": "WinRiver files are read like others", "statement": "The blocks behind the bottom track block are found at their offsets whatever program wrote the file.", "quantifier": "all files with the blocks of WinRiver", "why_tests_cant": "All orders and contents.", "anchors": ["dolfyn/io/rdi.py:_RDIReader.read_bottom", "dolfyn/io/rdi.py:_RDIReader.read_dat"]}
{"id": "C122", "title": "The configuration attributes are the recorded settings", "statement": "After reading a TRDI file the dataset's attributes (frequency, beam pattern, orientation, beam angle, number of beams and cells, pings, cell size, blanking, coordinate system, thresholds, bandwidth, power, serial number ...) are the values encoded in the fixed leader, and the range coordinate is the first-cell distance plus multiples of the cell size.", "quantifier": "every file of complete ensembles, every number of ensembles, every setting", "why_tests_cant": "Test files hold a few instrument set-ups; the bit fields and firmware-dependent bytes have very many combinations.", "anchors": ["dolfyn/io/rdi.py:_RdiReader.read_cfgseg", "dolfyn/io/rdi.py:_RdiReader.finalize"]}
{"id": "C123", "title": "fs follows the ensemble times of VMDAS and WinRiver files", "statement": "For VMDAS and WinRiver files the sampling frequency is the reciprocal of the mean time between ensembles; for other files it is one over (time between pings times pings per ensemble).", "quantifier": "every configuration and every list of ensemble times", "why_tests_cant": "No test compares fs with the recorded times for every file kind.", "anchors": ["dolfyn/io/rdi.py:_RdiReader.finalize"]}
{"id": "C124", "title": "GN2002 flags the samples outside the phase-space ellipsoid", "statement": "clean.GN2002(u, npt) marks a sample exactly when it lies outside the Goring-Nikora ellipsoid (deviation, first and second difference; half axes sqrt(2 ln n) standard deviations) of the window of npt samples it is judged in; in particular every sample whose deviation or difference exceeds sqrt(2 ln n) standard deviations is marked, a constant signal has no spikes, and neither an offset nor a change of unit or sign changes the marks.", "quantifier": "every signal, every window length npt > 0", "why_tests_cant": "Tests compare one record with a stored mask; the ellipsoid, its rotation and the limits are functions of all samples.", "anchors": ["dolfyn/adv/clean.py:GN2002", "dolfyn/adv/clean.py:_phaseSpaceThresh", "dolfyn/adv/clean.py:_calcab"]}
{"id": "C125", "title": "GN2002 finishes and judges each sample in its own window", "statement": "GN2002 ends without error (no loop limit, no singular matrix) for every non-empty signal and returns one mark per sample; each sample is judged with at most npt samples that include it and lie between the long gaps around it, and its mark depends on those samples alone.", "quantifier": "every signal with every pattern of missing samples, every npt > 0", "why_tests_cant": "A while loop and a recursion over gaps: termination and window placement for all lengths and gaps cannot be enumerated.", "anchors": ["dolfyn/adv/clean.py:GN2002", "dolfyn/tools/misc.py:group"]}
{"id": "C126", "title": "A missing sample does not hide a spike", "statement": "Replacing one sample by NaN does not turn off GN2002 for the other samples: a spike that is marked stays marked.", "quantifier": "every signal, every pair of samples", "why_tests_cant": "Needs all placements of the missing sample relative to the spike.", "anchors": ["dolfyn/adv/clean.py:GN2002", "dolfyn/adv/clean.py:_phaseSpaceThresh"]}
{"id": "C127", "title": "calc_acov is the auto-covariance of each bin", "statement": "calc_acov(veldat) gives for each bin of n_bin samples and each lag below n_bin//4 the auto-covariance of the bin with the samples lag steps later (first bin), earlier (last bin) or both averaged; at lag zero it is the variance of the bin; an offset of the signal does not change it and a factor enters squared; every n_bin >= 4 can be used, also as an argument.", "quantifier": "every record without missing samples, every bin size, every lag", "why_tests_cant": "Relates every lag of every bin to sums over the record; the padding and slice arithmetic depends on n_bin modulo 4.", "anchors": ["dolfyn/velocity.py:VelBinner.calc_acov", "dolfyn/binned.py:TimeBinner.reshape"]}
{"id": "C128", "title": "calc_xcov is the cross-covariance at the lag given by its coordinate", "statement": "calc_xcov(veldat1, veldat2, npt)[bin, dt] is the sum over the bin of the deviation of veldat1 dt samples later times that of veldat2; offsets do not matter and factors multiply.", "quantifier": "every pair of records of equal length without missing samples, every bin size >= 2, every npt <= 2 n_bin + 1", "why_tests_cant": "A statement for all lags and bins.", "anchors": ["dolfyn/velocity.py:VelBinner.calc_xcov"]}
{"id": "C129", "title": "The normed cross-covariance is a correlation coefficient", "statement": "With normed=True calc_xcov lies between -1 and 1, is the correlation coefficient of the bin at lag zero and 1 for a signal with itself.", "quantifier": "every pair of records of equal length, every bin in which both vary", "why_tests_cant": "An inequality over all data.", "anchors": ["dolfyn/velocity.py:VelBinner.calc_xcov"]}
{"id": "C130", "title": "Signature quantities come out in their units", "statement": "Reading a Signature file gives every recorded quantity (sound speed, temperature, pressure, heading, pitch, roll, magnetic field, acceleration, amplitude, correlation, echo, distance, figure of merit, altimeter quality, ...) within half a count of its value in the unit of the variable; velocities within half of the resolution that their own ping states.", "quantifier": "every file, every ping, every field of every record type and every value", "why_tests_cant": "All fields times all values times all record layouts.", "anchors": ["dolfyn/io/nortek2.py:_Ad2cpReader.sci_data", "dolfyn/io/nortek2_defs.py:_LinFunc", "dolfyn/io/nortek2_defs.py:_DataDef.sci_data"]}
{"id": "C131", "title": "The blanking distance is in metres", "statement": "The blanking distance of a dataset is the recorded one in metres, whether the status word says that it is counted in centimetres or in millimetres.", "quantifier": "every file, every record type, every status word", "why_tests_cant": "Depends on a bit of the status word in each ping.", "anchors": ["dolfyn/io/nortek2_defs.py:_burst_hdr", "dolfyn/io/nortek2_defs.py:_calc_echo_struct", "dolfyn/io/nortek2_lib.py:_status2data"]}
{"id": "C132", "title": "One magnetometer, one unit", "statement": "The same magnetic field recorded in a burst and in a bottom-track record gives the same values in the dataset.", "quantifier": "every field and both record types", "why_tests_cant": "Compares two record types for all values.", "anchors": ["dolfyn/io/nortek2_defs.py:_burst_hdr", "dolfyn/io/nortek2_defs.py:_bt_hdr"]}
{"id": "C133", "title": "Every measured variable reaches the dataset", "statement": "Each variable recorded in a Signature file (velocity, amplitude, correlation, fraction of good pings, AHRS, altimeter, standard deviations, bottom track, echo) is in the dataset under its name with the suffix of its record type, unchanged since conversion.", "quantifier": "every combination of record types and of recorded variables", "why_tests_cant": "2^n combinations of switches per record type.", "anchors": ["dolfyn/io/nortek2.py:_reorg", "dolfyn/io/nortek2.py:_reduce"]}
{"id": "C134", "title": "fs is the sampling rate", "statement": "The attribute fs of a Signature dataset times the time between two pings is one; missing times at the ends of the file are filled with that spacing.", "quantifier": "every configuration of bursts and averages", "why_tests_cant": "Configurations with averages are rare in test files.", "anchors": ["dolfyn/io/nortek2.py:_reduce", "dolfyn/io/nortek2.py:read_signature"]}
{"id": "C135", "title": "The orientation matrix goes from earth to instrument", "statement": "In every dataset read from a Signature file, orientmat of each ping is the transpose of the recorded matrix (which goes from the instrument to the earth): for bursts, for averages alone and for both profiles of a dual-profile file.", "quantifier": "every file with AHRS data, every ping and every matrix", "why_tests_cant": "Every combination of record types.", "anchors": ["dolfyn/io/nortek2.py:_reduce", "dolfyn/io/nortek2.py:split_dp_datasets"]}
{"id": "C136", "title": "Ping times are those of the instrument's clock", "statement": "The time of each Signature ping is the number of seconds from the start of 1970 to its date (Gregorian calendar) plus its 100 us counts; impossible dates and missing pings have no time and are filled in so that in the end each ping has a time and those that were read stay unchanged.", "quantifier": "every date with every sub-second count, every pattern of missing pings", "why_tests_cant": "All dates and all patterns of gaps.", "anchors": ["dolfyn/io/nortek2_lib.py:_calc_time", "dolfyn/io/nortek2.py:read_signature"]}
{"id": "C137", "title": "Dual-profile files are taken apart without loss", "statement": "Reading a file with two profiles gives for each profile the pings in which it was recorded, in order, and each in its own dataset, however many pings they have and whatever other records are in the file.", "quantifier": "every interleaving of the two profiles", "why_tests_cant": "All interleavings of pings.", "anchors": ["dolfyn/io/nortek2.py:_clean_dp_skips", "dolfyn/io/nortek2.py:split_dp_datasets"]}
{"id": "C138", "title": "Raw altimeter samples are the recorded signed fractions", "statement": "Each sample of a raw altimeter ping is the recorded signed 16-bit number divided by 256.", "quantifier": "every ping and every sample value", "why_tests_cant": "All sample values.", "anchors": ["dolfyn/io/nortek2.py:_altraw_reorg", "dolfyn/io/nortek2.py:_Ad2cpReader.read_altraw"]}
{"id": "C139", "title": "Instruments without AHRS can be read", "statement": "A Signature file without orientation matrices can be read, whichever variables and records it has.", "quantifier": "every combination of recorded variables without AHRS, bursts or averages", "why_tests_cant": "All switch combinations.", "anchors": ["dolfyn/io/nortek2.py:_reduce", "dolfyn/io/nortek2.py:_reorg"]}
{"id": "C140", "title": "State and orientation are those in the status word", "statement": "The attributes wakeup_state, orientation and orient_status of a Signature dataset are those of the codes in the status words; no code makes the file unreadable.", "quantifier": "every status word", "why_tests_cant": "2^32 status words.", "anchors": ["dolfyn/io/nortek2.py:_reorg", "dolfyn/io/nortek2_lib.py:_status2data"]}
{"id": "C141", "title": "Everything that was read is in the dataset, on its own axes", "statement": "Whatever combination of the variables of its kind a reader has collected (Signature, TRDI, Vector, AWAC), in any order and of any lengths: the dataset is made without an error, every coordinate is in it, and every variable is in it with the values read, on the time axis (and range axis) of its own record, velocities on the axis of directions and per-beam quantities on that of beams.", "quantifier": "every subset and order of the variables of each family, all numbers of pings and cells, all values", "why_tests_cant": "All combinations of record types and switches; fixtures cover a dozen.", "anchors": ["dolfyn/io/base.py:_create_dataset"]}
{"id": "C142", "title": "Plans with different numbers of beams can be read", "statement": "A file whose bursts, averages and bottom track have different numbers of beams, or one or two beams, gives a dataset in which each variable is complete and on its own axis; quantities per beam are on the beam axis.", "quantifier": "every combination of numbers of beams", "why_tests_cant": "All combinations of plans.", "anchors": ["dolfyn/io/base.py:_create_dataset"]}
{"id": "C143", "title": "Averaged datasets hold the means of successive samples", "statement": "do_avg gives for every named variable along a time axis the mean of each n_bin successive valid samples, line by line and on the same axes, with the mean instant of each bin as time coordinate, and U_std is the standard deviation of the horizontal speed over each bin; do_var gives likewise the variances under the suffixed names.", "quantifier": "every dataset with consistent sizes, every set and order of names, all bin lengths no longer than the axes, all values and missing samples", "why_tests_cant": "All datasets and bin lengths.", "anchors": ["dolfyn/velocity.py:VelBinner.do_avg", "dolfyn/velocity.py:VelBinner.do_var", "dolfyn/velocity.py:Velocity.U_mag"]}
{"id": "C144", "title": "Averaging keeps what needs no averaging", "statement": "The averaged dataset also holds the variables without time axis (e.g. the beam-to-instrument matrix needed by rotate2), a variable too short to be averaged is left out without affecting the others, and datasets without a variable called vel can be averaged.", "quantifier": "every dataset and bin length", "why_tests_cant": "All combinations of variables and lengths.", "anchors": ["dolfyn/velocity.py:VelBinner.do_avg"]}
{"id": "C145", "title": "The mean heading of a bin lies between its headings", "statement": "The averaged heading of a bin in which the instrument points within one degree of a direction is within one degree of that direction.", "quantifier": "every series of headings", "why_tests_cant": "All series, including those that cross north.", "anchors": ["dolfyn/velocity.py:VelBinner.do_avg", "dolfyn/binned.py:TimeBinner.mean"]}
{"id": "C146", "title": "Results of the binner carry the mean instants of their bins", "statement": "Autocovariances, cross-covariances, coherences and phases of any variable have, along its time axis whatever it is called, the mean instant of each bin as coordinate, and keep the other coordinates.", "quantifier": "every variable, its axes and their names, all bin lengths", "why_tests_cant": "All axes.", "anchors": ["dolfyn/binned.py:TimeBinner._new_coords"]}
{"id": "C147", "title": "Transforms are never longer than bins", "statement": "The lengths of transforms of a binner are those asked for when they do not exceed the bin, and the bin's length otherwise, at construction as well as when overridden in a call; without any, n_fft is n_bin and n_fft_coh is n_fft.", "quantifier": "all integers n_bin, n_fft, n_fft_coh and overrides", "why_tests_cant": "All settings.", "anchors": ["dolfyn/binned.py:TimeBinner.__init__", "dolfyn/binned.py:TimeBinner._parse_nfft", "dolfyn/binned.py:TimeBinner._parse_nfft_coh"]}
{"id": "C148", "title": "Vector and AWAC files are read whatever the number and spacing of their samples", "statement": "The room set aside before reading suffices: every intact Vector or AWAC file, of any length, is read to its end and gives all its samples in order, wherever its system data are and however many samples lie between them.", "quantifier": "all intact files: sequences of blocks, byte order, sampling rates, lengths", "why_tests_cant": "The room is estimated from the spacing of the first fifty blocks; whether the estimate is enough depends on the whole file.", "anchors": ["dolfyn/io/nortek.py:_NortekReader.code_spacing", "dolfyn/io/nortek.py:_NortekReader.findnextid", "dolfyn/io/nortek.py:_NortekReader.init_ADV", "dolfyn/io/nortek.py:_NortekReader.init_AWAC"]}
{"id": "C149", "title": "The search for the next block of a kind comes to an end", "statement": "Looking for the next block with a given identifier ends, with that block or with the end of the file, on every file, damaged or not.", "quantifier": "all sequences of bytes, all identifiers and starting positions", "why_tests_cant": "Termination on all files.", "anchors": ["dolfyn/io/nortek.py:_NortekReader.findnextid", "dolfyn/io/nortek.py:_NortekReader.code_spacing"]}
{"id": "C150", "title": "A median filter of the orientation keeps to what was recorded", "statement": "Every filtered pitch, roll, heading or quaternion component is a median of the nfilt recorded samples around it: one of them, with half of them no larger and half no smaller, so that samples outnumbered in their window do not move it out of the range of the others. Even kernels are refused and the length is kept.", "quantifier": "all records, kernel lengths and samples", "why_tests_cant": "All windows, including those at the ends of the record.", "anchors": ["dolfyn/adp/clean.py:medfilt_orient"]}
{"id": "C151", "title": "Filtered orientations can be used for rotations", "statement": "Filtering the orientation of any dataset with an odd kernel succeeds; afterwards the orientation matrix is the rotation of the filtered quaternions at each time, or, without an attitude sensor, is absent so that it is computed from the filtered angles.", "quantifier": "all orientations, kernels, with and without attitude sensor", "why_tests_cant": "All quaternion records, including sign changes that mean the same orientation.", "anchors": ["dolfyn/adp/clean.py:medfilt_orient", "dolfyn/rotate/base.py:quaternion2orient"]}
{"id": "C152", "title": "The filtered distance to the surface is a median of the estimates", "statement": "With nfilt given, the distance to the surface at every ping is a median of the estimates around it; gaps longer than the threshold are not filled.", "quantifier": "all series of estimates, kernels and thresholds", "why_tests_cant": "All series and positions.", "anchors": ["dolfyn/adp/clean.py:find_surface", "dolfyn/tools/misc.py:medfiltnan"]}
{"id": "C153", "title": "A binner's spectra belong to their bins and frequencies", "statement": "calc_psd gives, for one series or for each of three components, the spectrum of every bin (with its surroundings), the mean instant of the bin and the frequency of each estimate; a noise level lowers the estimates above it by the same amount; per Hz and per rad/s the curves hold the same energy; a bin length given to the call is used.", "quantifier": "all series, bin and transform lengths, windows, rates, noise levels, units", "why_tests_cant": "All series and lengths.", "anchors": ["dolfyn/velocity.py:VelBinner.calc_psd", "dolfyn/binned.py:TimeBinner.calc_psd_base"]}
{"id": "C154", "title": "Cross spectra are those of uv, uw and vw in each bin", "statement": "calc_csd gives for each bin the cross spectra of the components 0-1, 0-2 and 1-2, in that order, with the mean instants and frequencies; a bin length given to the call is used.", "quantifier": "all velocity records, bin and transform lengths, windows, rates, units", "why_tests_cant": "All records and lengths.", "anchors": ["dolfyn/adv/turbulence.py:ADVBinner.calc_csd", "dolfyn/binned.py:TimeBinner.calc_csd_base"]}
{"id": "C155", "title": "Coherence and phase compare parts of the records that cover the same time", "statement": "For two records with the same start and end, row k of the coherence (or phase) compares the k-th bin of both records, which cover the same part of the records, labelled with the mean instant of that bin; a transform length given to the call is used; a first record shorter than the second is refused.", "quantifier": "all pairs of records of any lengths, bin and transform lengths", "why_tests_cant": "All lengths, and the rounding of their quotients.", "anchors": ["dolfyn/velocity.py:VelBinner.calc_coh", "dolfyn/velocity.py:VelBinner.calc_phase_angle"]}
{"id": "C156", "title": "The noise levels of a coherence belong to their signals", "statement": "Swapping the two signals together with their noise levels leaves the coherence unchanged.", "quantifier": "all pairs of signals of any lengths, noise levels, windows", "why_tests_cant": "All signals and lengths.", "anchors": ["dolfyn/tools/psd.py:coherence"]}
{"id": "C157", "title": "Calling a binner leaves the raw dataset as it was", "statement": "Calling an ADVBinner (or calc_turbulence) gives a dataset with the attributes of the raw one and the lengths of the binner, and changes no attribute of the raw dataset.", "quantifier": "all dictionaries of attributes", "why_tests_cant": "All attributes.", "anchors": ["dolfyn/adv/turbulence.py:ADVBinner.__call__", "dolfyn/adv/turbulence.py:calc_turbulence"]}
{"id": "C158", "title": "Clock conversions in double precision", "statement": "With the rounding of double precision, dates, epoch seconds and datetime64 values still stand for the same instant after conversion: a date comes back to the microsecond, also through a dataset, a datetime64 comes back, whole seconds are exact, and no conversion reverses the order of two instants.", "quantifier": "all instants", "why_tests_cant": "All instants; rounding depends on every bit.", "anchors": ["dolfyn/time.py:epoch2dt64", "dolfyn/time.py:dt642epoch", "dolfyn/time.py:date2epoch", "dolfyn/time.py:epoch2date", "dolfyn/time.py:dt642date"]}
{"id": "C159", "title": "MATLAB dates in double precision", "statement": "With the rounding of double precision, a date converted to a MATLAB datenum and back is the multiple of 100 microseconds nearest to it.", "quantifier": "all dates from year 1 to 2869", "why_tests_cant": "All dates; rounding depends on every bit.", "anchors": ["dolfyn/time.py:date2matlab", "dolfyn/time.py:matlab2date"]}
{"id": "C160", "title": "Position from WinRiver2 GGA sentences", "statement": "Reading an ensemble with a GGA sentence written by WinRiver2 gives the latitude and longitude recorded in it, negative in the south and west, to the precision of the recorded double; the fix, the number of satellites, the dilution of precision, the elevation and the age of the corrections are those of the sentence, and no other variable changes.", "quantifier": "every position of the file, every content of the sentence and of the ensemble before it", "why_tests_cant": "positions are doubles of 64 bits and every hemisphere, fix and precision would have to be tried; the rounding to 32 bits shows only in the last metre", "anchors": ["dolfyn/io/rdi.py: _RDIReader.read_winriver2", "dolfyn/io/rdi_defs.py: data_defs"]}
{"id": "C161", "title": "Time from WinRiver2 GGA sentences", "statement": "time_gps of an ensemble is the instant given by the GGA sentence recorded with it.", "quantifier": "every time of day in the sentence and every date of the profiler's clock", "why_tests_cant": "the sentence holds no date: the error only appears where the two clocks are on different days", "anchors": ["dolfyn/io/rdi.py: _RDIReader.read_winriver2"]}
{"id": "C162", "title": "Speed, course, depth and heading from WinRiver2 sentences", "statement": "Reading VTG, DBT and HDT sentences written by WinRiver2 gives the speed over ground in m/s (to one part in 10000) and the course, the depth in metres and the heading (to 24 bits) recorded in them; no other variable changes.", "quantifier": "every content of the sentence, the state of the reader and the file around it", "why_tests_cant": "the numbers are 32-bit or 64-bit floats at fixed places of the block: a test with one file does not tell neighbouring fields apart for all contents", "anchors": ["dolfyn/io/rdi.py: _RDIReader.read_winriver2"]}
{"id": "C163", "title": "Ensembles without a GPS fix show none", "statement": "An ensemble without a GGA sentence, or with an empty one, has no position: its latitude, longitude and GPS time are NaN, not those of an earlier ensemble.", "quantifier": "every sequence of ensembles with and without fixes", "why_tests_cant": "a gap in the GPS record has to occur in the file, after a fix or at its beginning", "anchors": ["dolfyn/io/rdi.py: _RDIReader.read_winriver2", "dolfyn/io/rdi.py: _RDIReader.load_data"]}
{"id": "C164", "title": "Blocks are read where the header says", "statement": "Every block of an ensemble is read at the offset given in the header of the ensemble, whatever blocks come before it.", "quantifier": "every file, every list of offsets and every content of the blocks between", "why_tests_cant": "the reader moves by differences of offsets and of the lengths it believes to have read: an error in one block shifts all those behind it", "anchors": ["dolfyn/io/rdi.py: _RDIReader.read_buffer", "dolfyn/io/rdi.py: _RDIReader.read_dat", "dolfyn/io/rdi.py: _RDIReader.read_winriver2"]}
{"id": "C165", "title": "A Vector file becomes a dataset of its samples", "statement": "The dataset read from a Vector file holds the velocity, amplitude, correlation and pressure of every sample of the file, in order, and no other samples, and the time of each is that of the instrument's clock.", "quantifier": "every file of whole blocks, of any length, continuous or in bursts, with or without an IMU, read to its end or up to a number of samples", "why_tests_cant": "the samples, the clock in the system data and the room made for them meet only in the whole chain from bytes to dataset; files with other numbers of samples a second, bursts and block orders behave differently", "anchors": ["dolfyn/io/nortek.py: read_nortek", "dolfyn/io/nortek.py: _NortekReader.readfile", "dolfyn/io/nortek.py: _NortekReader._crop_data", "dolfyn/io/base.py: _handle_nan"]}
{"id": "C166", "title": "Attitude of a Vector between its system data", "statement": "Heading, pitch, roll, temperature, speed of sound and battery of a Vector dataset are the recorded ones at the samples with system data, lie on the straight line in time between two such samples, and every sample has them.", "quantifier": "every file, every place of the system data among the samples, every clock", "why_tests_cant": "the values between are interpolated with times that are themselves reconstructed; an error of one sample shows only where system data are apart in an unusual way", "anchors": ["dolfyn/io/nortek.py: _NortekReader.sci_vec_sysdata", "dolfyn/tools/misc.py: interpgaps", "dolfyn/io/nortek.py: read_nortek"]}
{"id": "C167", "title": "IMU data of a Vector belong to their samples", "statement": "Acceleration, angular rate, magnetic field and orientation matrix of each sample of a Vector dataset are those of the IMU message recorded with it, in the axes and units of the dataset.", "quantifier": "every file, every kind of IMU message and all its bytes", "why_tests_cant": "axes are permuted and signs changed in three arrays of floats, and the index is moved back and forth by one while reading: a test file with one message kind does not settle the others", "anchors": ["dolfyn/io/nortek.py: _NortekReader.read_microstrain", "dolfyn/io/nortek.py: _NortekReader.sci_microstrain"]}
{"id": "C168", "title": "An AWAC file becomes a dataset of its profiles", "statement": "The dataset read from an AWAC file holds every profile of the file, in order, and no others: its velocities and amplitudes by beam and cell, heading, pitch, roll, pressure, temperature, battery, speed of sound, error and status, at the instant of the date recorded with it; the matrix of the transducers is the one of the header.", "quantifier": "every file of whole blocks, any number of profiles, cells and beams and all values in them, any date", "why_tests_cant": "the room for the profiles is guessed from the first ones and cut afterwards; files with other numbers of profiles, or other blocks between them, get other guesses", "anchors": ["dolfyn/io/nortek.py: read_nortek", "dolfyn/io/nortek.py: _NortekReader.read_awac_profile", "dolfyn/io/nortek.py: _NortekReader.init_AWAC", "dolfyn/io/base.py: _handle_nan"]}
{"id": "C169", "title": "A dataset survives a MATLAB file", "statement": "load_mat of a file written by save_mat gives the dataset that was saved: every coordinate and every variable, on the same axes and with the same values, and no others; times come back to the resolution of the file.", "quantifier": "every dataset of every instrument, all sizes of its axes, all values and all instants", "why_tests_cant": "arrays are squeezed on the way and the axes are guessed again from names and sizes, with a variable carried from one variable to the next: which combination of names, order and sizes goes wrong has to be searched among all of them", "anchors": ["dolfyn/io/api.py: save_mat", "dolfyn/io/api.py: load_mat", "dolfyn/io/base.py: _create_dataset", "dolfyn/time.py: date2matlab"]}
{"id": "C170", "title": "A Signature file becomes a dataset of its pings", "statement": "The dataset read from a Signature file, or from a range of its ensembles, holds for every ensemble its velocities, sensors, times, orientation and number: those that are in the bytes of that ensemble, each at the place of the ensemble in the range.", "quantifier": "every file of ensembles with any set of record types, any configuration words and any bytes, every range, any earlier state of the index", "why_tests_cant": "the values pass through the index, the reading loop, the scaling and the merging of record types: each of them may move or drop a ping, for some configuration or range", "anchors": ["dolfyn/io/nortek2.py:read_signature", "dolfyn/io/nortek2.py:_Ad2cpReader", "dolfyn/io/nortek2_lib.py:get_index"]}
{"id": "C171", "title": "The configuration at the start of a Signature file", "statement": "The lines of text in the first record of a Signature file are read into the configuration without loss: every parameter of every command is found under the command's name with the integer or decimal number that was written, other lines are kept as text in the order of the file, and the sampling rate, the beam-to-coordinate matrix, the name of the instrument and the angle of the beams that the dataset reports are those the text states.", "quantifier": "all texts made of commands and other lines, with any names, numbers of parameters, and numerals of any length", "why_tests_cant": "The test files hold a handful of configurations, all written by the same few firmware versions; names of commands, numbers of digits, signs, repeated lines and quoted commas vary with the deployment.", "anchors": ["dolfyn/io/nortek2.py:_Ad2cpReader._read_filehead_config_string", "dolfyn/io/nortek2.py:_reorg", "dolfyn/io/nortek2.py:_reduce"]}
{"id": "C172", "title": "A TRDI file becomes a dataset whose velocities turn into earth velocities", "statement": "read of a TRDI file gives a dataset with one time for each ensemble, the one of the instrument's clock, and rotate2 of this dataset to 'earth' gives, for every ensemble and cell without a missing beam, and for the bottom track, the east, north, up and error velocities that the manufacturer's manual computes from the velocities, heading, pitch and roll in the bytes of this ensemble, whatever frame the file is in, beam, instrument, ship or earth. A declination given by the user turns them clockwise by it, when the instrument applied none.", "quantifier": "every file of whole ensembles, any number of cells and ensembles, any heading, pitch, roll, beam angle, mounting and velocities; every number of ensembles asked for", "why_tests_cant": "reading, beam matrix, gimbal pitch, mounting, frame and declination are tested apart and on a few files; a sign, a place or an angle in the wrong units shows only in some combination of mounting, tilts and frame", "anchors": ["dolfyn/io/rdi.py: read_rdi", "dolfyn/rotate/rdi.py: _calc_orientmat", "dolfyn/rotate/rdi.py: _calc_beam_orientmat", "dolfyn/rotate/rdi.py: _beam2inst", "dolfyn/rotate/rdi.py: _inst2earth", "dolfyn/rotate/api.py: rotate2", "dolfyn/io/rdi.py: _set_rdi_declination"]}
{"id": "C173", "title": "A wrong clock costs a TRDI file no more than the time of the ensemble", "statement": "If the clock of an ensemble of a TRDI file is no date, this ensemble has a missing time; its velocities and everything else in the file are read as ever.", "quantifier": "every file of whole ensembles, every place of the ensemble with the wrong clock, all its bytes", "why_tests_cant": "test files have right clocks; which of the ensembles is affected decides what happens", "anchors": ["dolfyn/io/rdi.py: read_rdi", "dolfyn/io/rdi.py: _RDIReader.load_data"]}
{"id": "C174", "title": "An AWAC file read and rotated to 'earth' has the velocities of the manufacturer's formulas", "statement": "Reading an AWAC file and calling rotate2(ds, 'earth') gives, for every profile and cell, the velocity that the manufacturer's Transform.m computes from the velocities, heading, pitch, roll and mounting (status bit 0) that the profile records and from the beam matrix of the header, whether the file is in beam, XYZ or ENU coordinates; a declination in the userdata file turns it clockwise by that angle.", "quantifier": "every AWAC file of well-formed profiles (three or more), every frame, attitude, mounting, velocity and declination", "why_tests_cant": "test files have a few attitudes of one instrument, and the expected values were made by the program itself", "anchors": ["dolfyn/io/nortek.py: read_nortek", "dolfyn/rotate/vector.py: _calc_omat, _euler2orient, _inst2earth", "dolfyn/rotate/base.py: _beam2inst", "refs/Transform.m"]}
{"id": "C175", "title": "A Vector file read and rotated to 'earth' has the velocities of the manufacturer's formulas", "statement": "Reading a Vector file without IMU data and calling rotate2(ds, 'earth') gives, for every sample, the velocity that the manufacturer's Transform.m computes from the recorded velocities, the mounting and the beam matrix and from the attitude at that sample: the recorded one where there are system data, one between the two neighbouring ones elsewhere; a declination in the userdata file turns it clockwise by that angle.", "quantifier": "every Vector file of well-formed blocks, continuous or in bursts, every frame, attitude, velocity, scale and declination, up or down", "why_tests_cant": "test files have a few attitudes that hardly change; what happens between two system data, after the last, before the first or at north depends on the file", "anchors": ["dolfyn/io/nortek.py: read_nortek, sci_vec_sysdata", "dolfyn/tools/misc.py: interpgaps", "dolfyn/rotate/vector.py: _calc_omat, _euler2orient, _inst2earth", "dolfyn/rotate/base.py: _beam2inst", "refs/Transform.m"]}
{"id": "C176", "title": "A Signature file read and rotated to 'earth' has the vectors of the manufacturer's formulas", "statement": "Reading the bursts of a Signature file and calling rotate2(ds, 'earth') gives, for every ping and cell, the velocity that the manufacturer's signatureAD2CP_beam2xyz_enu.m computes from the recorded velocity counts and scale, the beam matrix of the header, the orientation matrix of the ping (the recorded one of the AHRS, or else that of the recorded heading, pitch and roll) and the mounting, whether the file is in beam, XYZ or ENU coordinates; the accelerations and the magnetic field are turned in the same way; a declination in the userdata file turns all of them clockwise by that angle.", "quantifier": "every Signature file of well-formed bursts, every part of it that is read, every number of cells, frame, attitude, mounting, velocity, scale and declination", "why_tests_cant": "test files have a few attitudes of few instruments, nearly all with four beams in beam coordinates, and the expected values were made by the program itself", "anchors": ["dolfyn/io/nortek2.py: read_signature, _reorg, _reduce", "dolfyn/rotate/signature.py: _inst2earth", "dolfyn/rotate/base.py: _beam2inst, _set_coords", "dolfyn/rotate/vector.py: _euler2orient", "refs/signatureAD2CP_beam2xyz_enu.m"]}
{"id": "C177", "title": "The ranges of a Signature dataset are the distances of the cell centres", "statement": "In a dataset read from a Signature file the range coordinate of a velocity profile (bursts, averages or the fifth beam) has one entry for every cell, and entry i (from 1) is the blanking distance plus i times the cell size of that profile, in metres, with the cell size and blanking that its pings record; the blanking is recorded in centimetres or in millimetres, as a bit of the status of the ping says.", "quantifier": "every Signature file of well-formed records whose pings agree in cell size and blanking, every part of it that is read, every number of cells, cell size, blanking and unit", "why_tests_cant": "test files have a few configurations, all with the same unit of the blanking", "anchors": ["dolfyn/io/nortek2.py: _reorg, _reduce", "dolfyn/io/nortek2_defs.py: _burst_hdr", "dolfyn/io/nortek2_lib.py: _collapse, _status2data"]}
{"id": "C178", "title": "The header of a Nortek file sets how its data are read", "statement": "Opening an AWAC or Vector file takes the instrument from its serial number, the carrier frequency and beam matrix from the head block, and the coordinate system, sampling rate, numbers of beams and cells, velocity resolution, burst length, cell length and blanking from the user block, each from the place where the manufacturer records it.", "quantifier": "every header of three blocks with any settings, and any data after it", "why_tests_cant": "Three blocks of 780 bytes with thousands of settings; unit tests read a handful of example files with one header each, and a wrong place that happens to hold the same number goes unnoticed.", "anchors": ["dolfyn/io/nortek.py: _NortekReader.__init__, read_hw_cfg, read_head_cfg, read_user_cfg, init_ADV, init_AWAC"]}
{"id": "C179", "title": "Nortek files from their first byte to earth velocities and ranges", "statement": "Reading an AWAC or Vector file and rotating to earth gives every recorded velocity turned by the attitude, with the beam matrix, coordinate system and resolution that the header of the same file says; the ranges of an AWAC follow from the cell length, blanking and frequency of the header.", "quantifier": "every header, every number of profiles or samples, cells, angles, velocities and declination", "why_tests_cant": "The settings of the header and the data have to fit together for every combination; unit tests compare a few files with stored results.", "anchors": ["dolfyn/io/nortek.py: read_nortek, _NortekReader.__init__, read_user_cfg, read_head_cfg, sci_awac_profile", "dolfyn/rotate/api.py: rotate2"]}
{"id": "C180", "title": "Attributes of Nortek datasets are the recorded settings", "statement": "Reading the file of a Nortek AWAC or Vector gives the dataset one attribute for each setting of its header: serial number, versions, recorder size, sensors present, carrier frequency, numbers of beams and cells, name of the deployment and comments (up to the first zero byte), salinity, compass update rate, wrap mode, the switches of the mode registers, for an AWAC its averaging interval and wave settings, for a Vector its pings per burst. Each has the value that stands at the place the manual gives, translated by its table, and none appears twice. The duty cycle is given if and only if the instrument sampled in bursts. Sampling rate, coordinate system and instrument are those of the header.", "quantifier": "every header (all values of all settings, all texts that are ASCII) followed by any bytes", "why_tests_cant": "The tests compare a handful of files whose headers mostly have default settings; a shifted place or a swapped bit shows only for other settings.", "anchors": ["dolfyn/io/nortek.py: read_user_cfg, read_head_cfg, read_hw_cfg, _NortekReader.__init__, _init_data"]}
{"id": "C181", "title": "Dates become text one by one, without loss, and sort like dates", "statement": "date2str gives one text for each date of a list, in the same order, and a list of one for a single date. In the default format the text is year-month-day hour:minute:second.microseconds with two digits for each field (six for microseconds) and says exactly the date; no two dates have the same text, and sorting the texts sorts the dates. With a format of the caller, text is kept and every directive is replaced by the number it stands for.", "quantifier": "all lists of dates of the years 1 to 9999 (order: of the years from 1000), all formats made of text and the directives for year, month, day, hour, minute, second and microsecond", "why_tests_cant": "There are 3e17 dates; tests convert a few. That sorting texts sorts dates is a statement on all pairs.", "anchors": ["dolfyn/time.py: date2str"]}
{"id": "C182", "title": "The status of a Signature is reported ping by ping", "statement": "In a dataset read from a Signature file each of the variables low_volt_skip, active_config, telemetry_data and boost_running has one entry per ping, 1 or 0 as bits 17, 16, 11 and 10 of the status word of that ping are. The attributes proc_idle_less_3pct, proc_idle_less_6pct and proc_idle_less_12pct are there exactly if some ping marks its second status word as in use, and each is 1 exactly if at least half of the pings have its bit; if the pings agree, it is the bit they agree on.", "quantifier": "all lists of status words, of any length", "why_tests_cant": "Tests read a few files whose status words are nearly constant; the claim is about every combination of words.", "anchors": ["dolfyn/io/nortek2_lib.py:_status02data", "dolfyn/io/nortek2_lib.py:_status2data", "dolfyn/io/nortek2_lib.py:_collapse", "dolfyn/io/nortek2.py:_reorg"]}
