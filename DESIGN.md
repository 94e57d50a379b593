# A Rocq model of DOLfYN

The subject is lkilcher/dolfyn at the pinned commit, read as text. The model is
written by hand, function by function; each definition in `theories/Model`
carries a comment with the file and lines it models. Nothing was executed
against the Python code, so the correspondence between model and code rests on
reading.

## Layout

* `theories/Model/*.v`  total Gallina definitions, no proofs.
* `theories/Spec/*.v`   what the English properties mean, written without
  the model's helpers wherever possible.
* `theories/Proofs/*.v` lemmas.
* `theories/Props/*.v`  only the property theorems, each closed by `exact`,
  followed by a non-vacuity `Example` and `Print Assumptions`.

A property that is false of the faithful model is recorded as a theorem whose
name ends in `_refuted` with an explicit witness, usually next to the part of
the property that does hold (`_partial`).

## Trusted base

* Coq 8.16.1's kernel (and `vm_compute` where a proof uses it).
* The reading of the Python code, numpy, xarray and scipy that the comments in
  `theories/Model` spell out.
* `Print Assumptions` is run under every theorem in `theories/Props`. Files
  over Z, nat, Q, strings and lists are closed under the global context. Files
  over the real numbers list the axioms of Coq's standard Reals library
  (`ClassicalDedekindReals.sig_forall_dec`, `ClassicalDedekindReals.sig_not_dec`,
  `FunctionalExtensionality.functional_extensionality_dep`, and `Classical_Prop.classic`
  where the trigonometric inverse functions use it). No other axiom is used and none is added.

## Idealisations that hold throughout

* Floating point numbers are exact: real numbers (`R`) where trigonometry or
  square roots are used, rationals (`Q`) otherwise. Rounding error, overflow to
  infinity and float32 casts are not modelled. NaN is modelled where the code
  branches on it or where it is the subject, as `None` in `option Q`.
* An exception is the value `Err`/`None`. Warnings and printed text are not modelled.
* xarray/numpy arrays are lists (of lists); broadcasting is written out.
  A dataset is a record with the attributes and variables the function reads
  or writes; other variables are untouched by construction and are not represented.
* Integers are unbounded except where the code masks, shifts or uses a fixed
  width that matters (checksums, uint8 arange, 16-bit words).

## Plan per property

| id | property | model file | what is modelled and how it is proved |
|---|---|---|---|
| C01 | Rotating to another frame and back restores the data | Rotate | rotate2 as a fuelled loop over a dataset record (frame, samples with orientation matrix and component lists); real matrices as lists; step-inverse lemmas, then induction on the frame distance |
| C02 | Rotation result does not depend on the route | Rotate | same model; composition of chains by case analysis on the three frames |
| C03 | Frame rotations preserve speed | Rotate | norm lemmas for each step function from orthonormality |
| C04 | rotate2 either reaches the requested frame or raises | Rotate | loop termination by fuel-sufficiency, error table over arbitrary strings |
| C05 | Setting the declination replaces the previous one | Declination | set_declination over the Rotate dataset, rotation composition by angle addition |
| C06 | Declination rotates earth velocities clockwise and commutes with rotate2 | Declination | same, with an independent clockwise-rotation specification |
| C07 | Principal frame is unaffected by declination | Declination | same |
| C08 | The instrument-to-head rotation can be set in any frame, once | Inst2Head | set_inst2head_rotmat over the Rotate dataset |
| C09 | An accepted inst2head matrix gives reversible rotations | Inst2Head | refutation: a shear matrix with determinant 1 is accepted but not reversible |
| C10 | Heading/pitch/roll always give a proper rotation matrix | Euler | matrix builders over R; trig identities |
| C11 | orient2euler inverts euler2orient | Euler | atan2 and asin defined over R; inverse laws by case analysis on quadrants |
| C12 | Quaternion orientation is a proper rotation independent of sign and scale | Euler | quaternion algebra over R |
| C13 | TRDI beam matrix inverts the Janus geometry | Euler | matrix over R against an explicit Janus geometry |
| C14 | The 4-beam Signature rotation extends the 3-D rotation | Rotate | 4x4 matrix of the Signature rotation |
| C15 | Principal heading is insensitive to flow reversal and follows rotations | Principal | complex series over R; per-sample lemma, then the sum |
| C16 | Tilt is a valid inclination | Euler | atan/sqrt inequalities; the equality with the matrix inclination is expected to be refuted |
| C17 | Angle convention conversion is an involution with the documented range | Angles | Python modulo over R via floor; also computable over Q |
| C18 | epoch2dt64 denotes the same instant | Time | epoch over Q, truncation and floor-mod explicit; expected refutation for negative fractions, proof for the rest |
| C19 | Epoch/datetime64 conversions round-trip and preserve order | Time | same |
| C20 | MATLAB datenum conversion round-trips to 100 microseconds | Time | microsecond counts in Z; rounding of the microsecond field explicit |
| C21 | Two-digit instrument years map to one century window | Time | integer function |
| C22 | Filling time gaps keeps every recorded time and leaves none missing | Gaps | option Q lists; uses the fillgaps model |
| C23 | fillgaps fills exactly the gaps it may and never alters data | Gaps | option Q lists, code's index arithmetic kept; specification by neighbours |
| C24 | interpgaps interpolates linearly in time | Gaps | same with a time list |
| C25 | group returns the maximal runs of True | Group | boolean lists; expected refutation when the first sample is True, proof otherwise |
| C26 | slice1d_along_axis visits every 1-D slice exactly once | Slice1d | the odometer loop as a state machine over nat vectors |
| C27 | detrend removes exactly the least-squares line | Stats | option R lists, least squares identities; stated for series without missing samples |
| C28 | reshape partitions the series into consecutive bins | Reshape | polymorphic lists; index characterisation |
| C29 | Padding in reshape copies the neighbouring samples | Reshape | same |
| C30 | Fractional n_bin skips samples without reordering or overlap | Reshape | floor arithmetic over Q |
| C31 | Bin means and de-meaned data are consistent | Stats | option R lists over the reshape model |
| C32 | Binned datasets never mix inconsistent metadata | CheckDs | attribute dictionaries as association lists over an arbitrary value type; refuted for the binner's own attributes |
| C33 | The frequency vector has one entry per spectral estimate | Psd | fftfreq slice over R, for all nfft and fs |
| C34 | Welch segments stay inside the data and their number is the divisor | Psd | stepsize, segment enumeration, window and DFT over R; spectrum equal to an elementary sum over the segments |
| C35 | Power spectra are non-negative, quadratic and blind to trends | PsdProps | same model; linearity of detrend and DFT |
| C36 | Noise-corrected spectra are never negative | PsdProps | noise correction on lists of reals |
| C37 | Coherence lies between 0 and 1 | Coherence | Cauchy-Schwarz over the segments |
| C38 | Phase angle compares the two signals | Phase | unit phasors per segment |
| C39 | Speed and direction describe the velocity | Vel | atan2 over R; polar decomposition gives the components back |
| C40 | Turbulence intensity below the threshold is not reported | Vel | bin moments from the Stats lemmas; the mask is computed then dropped by `.data`: value theorem, threshold-ignored theorem and a refuting series |
| C41 | TKE and stress are consistent second moments | Vel | second moments of the unique fluctuations of each bin; Cauchy-Schwarz by the discriminant; shift lemma for constants and trends |
| C42 | Dissipation from an ideal inertial-range spectrum is recovered | Dissipation | Rpower identities; selection of grid points by filter; scaling through the floor value |
| C43 | Structure-function dissipation uses the r^(2/3) law | Dissipation | least squares recovers any line; the abscissa r**2/3 is (r^2)/3: recovers eps for that law, witness against the 2/3 law |
| C44 | Beam-variance stresses recover the Reynolds stress | BeamStress | Beam geometry in Spec/BeamStress.v (z-up frame), every beam may see its own series with the same second moments; 4-beam and 5-beam stresses computed from the beam variances. Refuted for TRDI v'w' and for v'v', w'w' of five beams. |
| C45 | Shear estimates are exact for linear profiles and sized like their range | BeamStress | Differencing styles over lists; linear profiles on an even grid; calc_dudz of a down-looking instrument raises (refuted). |
| C46 | Range and spike masks flag exactly the offending samples | CleanAdv | Masks over lists with missing samples; also val_exceeds_thresh. |
| C47 | clean_fill touches only masked samples and reaches all of them | CleanAdv | The search loop of _interp_nan over an arbitrary interpolator (any function that keeps valid samples); windows proved to cover; linear interpolation proved equal to that of the whole series. |
| C48 | Ensemble-mean filling changes only masked samples | CleanAdv, EnsembleMean | The reshaping, extra window and trimming, over real samples. |
| C49 | correlation_filter removes exactly the low-correlation beam samples and restores the frame | CleanAdp | One cell at one time, over arbitrary inverse rotations that spread missing values as einsum does. |
| C50 | nan_beyond_surface removes exactly the contaminated cells | CleanAdp | One ping; angle, limit and mask by position. Refuted for an angle given by the user and for variables on another range. |
| C51 | set_range_offset is additive and recorded | CleanAdp | Dimensions with coordinates. |
| C52 | find_surface discards weak echoes for every ping | CleanAdp | Echo as a function of beam, cell, ping; uint8 arithmetic modelled modulo 256. Mostly refuted. |
| C53 | Depth from pressure is increasing in pressure | CleanAdp | Real analysis of the two formulas. |
| C54 | Rotation-induced velocity is omega x r | Motion | Cross product over R; lever arm to the IMU, bilinearity, perpendicularity, covariance under proper rotations. |
| C55 | Motion correction is applied exactly once and adds head motion | Motion | The whole of correct_motion on the dataset record of Model/Rotate; Butterworth filters are an arbitrary length-preserving partial function; both settings compared through rotate2. |
| C56 | Duty-cycle check rejects wrong intervals | Motion | Truncation to whole seconds modelled; the mean test is contradictory, so refuted; rejection proved from three seconds on. |
| C57 | File names get exactly one right extension | FileNames | `check_file_ext` on lists of characters (api.py:13-23); base name, extension defined by decomposition of the path; accept, refuse, append and idempotence proved for every path. |
| C58 | File type detection is determined by the magic bytes | FileNames | `get_filetype` and the dispatch of `read` on byte lists (base.py:12-39, api.py:66-103). |
| C59 | Trailing-NaN removal only removes trailing NaN samples | HandleNan | `handle_nan` on named variables of one or two dimensions (base.py:80-110); number and place of the removed samples characterised, three refutations. |
| C60 | A user-supplied userdata file name is honoured | FileNames | `find_userdata` against an arbitrary file system (base.py:42-53); a file name given by the caller is never opened: refuted. |
| C61 | save followed by load restores variable names and complex data | SaveLoad | the loop of `save` that splits complex variables and casts to float32, attribute writing, and `load` (api.py:136-249); round trip proved for every list of variables without clashes, with refutations for the clashes. netCDF encoding, compression and CF decoding of times are not modelled. |
| C62 | BCD clock bytes decode to their decimal digits | Nortek | `_bcd2char` (nortek.py:115-122) on integers; digits, injectivity and range proved |
| C63 | Nortek block checksums accept exactly intact blocks | Nortek | `checksum` (nortek.py:474-484): the test is inverted and has no modulus, so it refuses exactly one stored value; two refutations |
| C64 | Both byte orders of Nortek files are recognised | Nortek | the detection of byte order (nortek.py:201-209): characterised for both orders; the second test reads the next four bytes, so a big-endian header is refused (refutation) |
| C65 | Resynchronisation finds the next block start | Nortek | `findnext` (nortek.py:361-378) as a recursion over words; first block start, none skipped, and an unknown block is passed over |
| C66 | IMU axis remapping is a rotation | Microstrain | `sci_microstrain` (nortek.py:1011-1036) over R |
| C67 | nens selects the requested samples | NortekFile | the reading loop (nortek.py:355-440) and the block readers; first n samples proved for Vector files of whole blocks; the start of a range is never used (refutation) |
| C68 | Configuration bits report the burst mode | Nortek | the timing control register (nortek.py:129-133, 509-518); burst_mode is always true (refutation), the other fields follow their bits |
| C69 | AD2CP blocks with a bad checksum are rejected | Ad2cp | layouts (nortek2_defs.py:22-140, 168-368), pack/read round trip by induction on the layout, checksum by sums of words; refuted for the files: no caller verifies |
| C70 | Bit-field extraction returns the packed value | Ad2cp | bit fields (nortek2_lib.py:290-445) over Z.testbit |
| C71 | The AD2CP index numbers ensembles monotonically | Ad2cpIndex | byte-level _create_index (nortek2_lib.py:97-155), invariant along the loop |
| C72 | Uniform configuration collapse | Ad2cp | _collapse (nortek2_lib.py:448-479), counts over lists |
| C73 | Angle averages are circular means | Readers | Model/Reduce.v: complex mean of two unit vectors over R (model of arctan2 from Euler); congruence modulo 360 |
| C74 | TRDI ensemble numbers are the encoded 24-bit numbers | RdiFile | Model/RdiBlocks.v, RdiFile.v: the reader of rdi.py:340-1222 on byte files; read_var |
| C75 | TRDI positions and bottom-track distances decode correctly | RdiFile | read_bottom, read_vmdas; fields by byte numbers of the manual (Spec/Rdi.v) |
| C76 | Declination in TRDI files is applied once | Readers | Model/RdiPost.v: set_rdi_declination on the dataset of Model/Rotate.v |
| C77 | No recorded TRDI ensemble is lost | RdiFile | read_rdi on files of encoded ensembles (Spec/Rdi.v), induction over the ensembles |
| C78 | TRDI invalid velocities are marked missing | RdiFile | read_vel, read_bottom, clean_data |
| C79 | Duplicate GPS fixes removal keeps one sample per fix | Readers | Model/RdiPost.v: argsort and unique over option Q times |
| C80 | Beam-frame range cells are evenly spaced from the blanking distance | Readers | Model/Reduce.v: the range formulas of the three readers over R |
| C81 | Each rotation applies the documented geometry to every sample | Rotate | pointwise effect of one step of rotate2, from the step lemmas of C01 |
| C82 | Principal heading lies in the documented range | Principal | range of arctan2, monotonicity of rounding; refutation by a witness |
| C83 | Trailing missing orientations are continued from the last valid one | Euler | list recursion for the last valid index |
| C84 | detrend with missing samples removes the trend of the valid samples | Stats | same detrend model; refuted by a three-sample series |
| C85 | Bin spectra are computed from the samples of the record only | SpectraWitness | calc_psd_base on one line of data: reshape, then psd per row |
| C86 | The integral of the spectrum is the variance | Parseval | Parseval's identity proved for the model DFT |
| C87 | Cross spectra keep the order of their arguments | Phase | cpsd against an elementary cross sum |
| C88 | The bin size given to calc_psd_base is used | SpectraWitness | calc_psd_base with overrides |
| C89 | The total kinetic energy needs all its components | Vel | sum skips NaN: refuted; complete components proved |
| C90 | ADV structure-function dissipation recovers the r^(2/3) law | Dissipation | median of a constant list; lag structure function over option samples |
| C91 | The structure-function fit uses the separations in r_range | Dissipation | index arithmetic with Qfloor/Qceiling |
| C92 | The cascade slope check returns the slope of a power law | Dissipation | least squares on logarithms |
| C93 | The friction velocity of a linear stress profile is recovered | Dissipation | sign averaging and mean of a constant |
| C94 | The Doppler noise level of a white spectrum | Dissipation | bounds of a mean; change of variables |
| C95 | The integral length scale is U times the first lag below 1/e | Dissipation | first-false characterisation of argmin |
| C96 | TE01 dissipation of ideal spectra is recovered | Dissipation | same weighting lemma as LT83, for given values of the integral A13 |
| C97 | The beam angle given by the caller is the one used | BeamStress | The angle chosen from attribute and argument; refuted when the dataset has the attribute. |
| C98 | Gaps longer than maxgap are not interpolated | CleanAdv | xarray's documented limit semantics; refuted. |
| C99 | Separate-probe correction uses the motion of each receiver along its own beam | Motion | np.dot contracts the probe index; refuted with a concrete head. |
| C100 | velacc is the integral of the acceleration without its mean | Motion | Closed form of the cumulative trapezoid, composed with the frame rotations. |
| C101 | Duty-cycled data are integrated burst by burst, with the documented filter frequencies | Motion | Lengths of the reshaped bursts against the record; case analysis of the precedence. |
| C102 | A userdata file's contents reach the dataset under their present names | FileNames | `read_userdata` on JSON dictionaries (base.py:56-77). |
| C103 | Saving a dataset does not change it | SaveLoad | the second result of `save` is the caller's dataset; refuted for float64 and complex variables. |
| C104 | A Vector file is read sample by sample | NortekFile | the reading loop with the counters and arrays, induction over the blocks; headers, user/head/hardware configuration, check data, system data and IMU blocks may be interleaved. Partial: Vector files, known blocks, checksum verification as the code performs it, and arrays long enough; the guess of their length (nortek.py:286-306, 458-472) is a parameter |
| C105 | Vector blocks decode to the values the instrument stored | NortekData | byte formats of nortek.py:659-687, 817-843 and the factors of nortek_defs.py; temperatures below zero refuted |
| C106 | AWAC profiles decode to the values the instrument stored | NortekData | byte formats of nortek.py:1038-1077 and the factors of nortek_defs.py; negative pitch, roll and temperature refuted |
| C107 | Every Vector sample gets the time of the instrument's clock | NortekData | `sci_vec_sysdata` (nortek.py:845-880) with numpy.polyfit of degree one as the least-squares line; refuted for fewer than three times in a burst |
| C108 | orientation_down reports the status bit | NortekData | `sci_vec_sysdata` (nortek.py:881-889) on top of the model of fillgaps; refuted at a change from down to up |
| C109 | Documented block types do not disturb the samples | NortekFile | refutations: wave blocks, IMU message 210, IMU block before the first sample |
| C110 | Each Signature ensemble lands in its own column | Ad2cpIndex | _create_index, _check_index, get_index, _calc_config, readfile, _advance_ens_count, _calc_lastblock_iswhole; induction over ensembles and records of the file |
| C111 | Raw altimeter pings can be read | Ad2cp | the reader patched by readfile (nortek2.py:292-329), sizes with and without alignment |
| C112 | What is read depends only on the data file | Ad2cpIndex | get_index with an index that exists |
| C113 | crop_ensembles keeps exactly the ensembles asked for | Ad2cpIndex | crop_ensembles (nortek2_lib.py:260-287) |
| C114 | E_coh is the size of the Reynolds stress vector | Vel.v | e_coh over R; square, bounds by nra; the docstring's "RMS" differs by sqrt 3 |
| C115 | Small tilts are corrected to first order in the five-beam stresses | BeamStress.v | tilted beam directions of an up-looking Signature pitched by p; exact closed form of u'u', u'w', v'w' by ring modulo sin^2+cos^2 = 1, bounds by the mean value theorem |
| C116 | TRDI ensembles show their own values | RdiFile | read_rdi; refutation: the ensemble object is not cleared between ensembles |
| C117 | Damaged TRDI ensembles are recognised | RdiFile | read_rdi; refutation: the checksum is skipped |
| C118 | Reading a TRDI file without nens reads the whole file | RdiFile | spacing estimate of __init__ (rdi.py:340-389), lower bound on the estimate; refutation for short ensembles |
| C119 | TRDI variables are the recorded numbers | RdiFile | read_dat and its readers, table of variables with the byte numbers of the manual; the clock |
| C120 | A bad navigation block costs no other data | RdiFile | read_vmdas; refutation on a file |
| C121 | WinRiver files are read like others | RdiFile | read_bottom, WinRiver branch; refutation on a file |
| C122 | The configuration attributes are the recorded settings | RdiBlocks.v, RdiFile.v | the fixed leader block is decoded byte by byte and the attributes are those left after the last ensemble read; 30 settings and the range coordinate equal Spec/Rdi.settings for every file of sound ensembles; refuted for files whose settings change between ensembles. |
| C123 | fs follows the ensemble times of VMDAS and WinRiver files | RdiFile.v | finalize's choice of fs; `hasattr` on a dict is false, so the times are never used: a VMDAS file with ensembles ten seconds apart gets 2 Hz from its settings. |
| C124 | GN2002 flags the samples outside the phase-space ellipsoid | Despike.v | _phaseSpaceThresh is modelled line by line over option R with IEEE division by zero (Fin/Inf/NaN); arctan2 is atan-based, so cos and sin of alpha, theta, phi are related to the sums by trigonometric identities; flagged iff outside the ellipsoid given implicitly by its axis direction and squared half axes. |
| C125 | GN2002 finishes and judges each sample in its own window | Despike.v | the loop with its counter of 100 and the recursion at long gaps (with group(), C25) are modelled with their error outcomes; invariant: after each pass mask = flags of the windows. |
| C126 | A missing sample does not hide a spike | Despike.v | refuted by a record of eight samples; the general behaviour (a window with a missing sample has no marks) is proved. |
| C127 | calc_acov is the auto-covariance of each bin | Covariance.v | calc_acov on top of the reshape model with fractional padding n_bin/2-2; rows as tables of a function, np.correlate as sums; the mean taken from the padded row drops out because the other factor has no mean. |
| C128 | calc_xcov is the cross-covariance at the lag given by its coordinate | Covariance.v | calc_xcov for records of equal length; same row lemmas as C127. |
| C129 | The normed cross-covariance is a correlation coefficient | Covariance.v | normed values divided by the standard deviations of bin_std; Cauchy-Schwarz for the deviations. |
| C130 | Signature quantities come out in their units | SigData | Dictionaries of variables per record type, conversion with scale and offset, reorganisation and reduction as list functions; lemmas follow one name through every step. Theorem: shown value within half a count. |
| C131 | The blanking distance is in metres | SigData | The converted blanking distance against the status bit. |
| C132 | One magnetometer, one unit | SigData | Both layouts on the same counts. |
| C133 | Every measured variable reaches the dataset | SigData | One name followed through [_reorg] and [_reduce] for all combinations of records; keys shown distinct by computation over the fixed tables. |
| C134 | fs is the sampling rate | SigData | fs after [_reduce]; gap filling of Gaps.v. |
| C135 | The orientation matrix goes from earth to instrument | SigData | The nine numbers of each ping and their transpose; [split_dp_datasets] as a partition of the variables by time axis. |
| C136 | Ping times are those of the instrument's clock | SigData | Days-from-civil arithmetic against a calendar given by its successor of a second (Proofs/Calendar.v); gaps with Gaps.v. |
| C137 | Dual-profile files are taken apart without loss | SigData | Missing pings as [None]; filter by version equals the recorded pings; partition by time axis. |
| C138 | Raw altimeter samples are the recorded signed fractions | SigData | Unsigned storage modulo 65536, division by 256. |
| C139 | Instruments without AHRS can be read | SigData | Success of the whole chain for every layout of bursts. |
| C140 | State and orientation are those in the status word | SigData | Bit fields as div/mod; [_collapse] of a constant vector. |
| C141 | Everything that was read is in the dataset, on its own axes | CreateDataset | the loop of `_create_dataset` (base.py:113-250) with its Python variable `tg` that outlives an iteration, axes created on demand, and the size check of `xarray.Dataset.from_dict`; the expected axes are tables in Spec; induction over the variables, each table entry by computation. |
| C142 | Plans with different numbers of beams can be read | CreateDataset | the same model; general theorem that a profile with another number of beams stops the assembly, and witnesses. |
| C143 | Averaged datasets hold the means of successive samples | DoAvg | do_avg and do_var on lists of named variables; induction over the names, with the statistics of one line from Stats. |
| C144 | Averaging keeps what needs no averaging | DoAvg | the same model; refutations over every dataset of the kind. |
| C145 | The mean heading of a bin lies between its headings | DoAvg | computed from C143_averages_partial. |
| C146 | Results of the binner carry the mean instants of their bins | DoAvg | new_coords over a list of axes; induction. |
| C147 | Transforms are never longer than bins | DoAvg | lengths as integers; case analysis. |
| C148 | Vector and AWAC files are read whatever the number and spacing of their samples | NortekGuess | the search for blocks, the spacing and the room as computed, followed by the reading of C107; induction over blocks, the estimate is an upper bound when the later blocks are as far apart as the first fifty. |
| C149 | The search for the next block of a kind comes to an end | NortekGuess | the search with a step bound; each block but those of size zero moves the position forward, so file length bounds the steps. |
| C150 | A median filter of the orientation keeps to what was recorded | MedFilt | scipy's medfilt as sorted zero-padded windows over the reals; counting argument on the sorted permutation. |
| C151 | Filtered orientations can be used for rotations | MedFilt | the branches of the function with the rotation of C12; case analysis. |
| C152 | The filtered distance to the surface is a median of the estimates | MedFilt | medfiltnan for one dimension, with scipy's answer for windows with NaN as a parameter; by C150 and a bound on the fraction. |
| C153 | A binner's spectra belong to their bins and frequencies | BinSpec | calc_psd and calc_psd_base with their coordinates; reshape lemmas of C28, scaling of the spectrum with the rate. |
| C154 | Cross spectra are those of uv, uw and vw in each bin | BinSpec | calc_csd and calc_csd_base; reshape lemmas of C28. |
| C155 | Coherence and phase compare parts of the records that cover the same time | BinSpec | calc_coh, calc_phase_angle; int(N1/(N2/n)) with quotients rounded to 53 bits; error bound of the rounding. |
| C156 | The noise levels of a coherence belong to their signals | BinSpec | coherence of any lengths; C87 for the conjugate; witness with a zero signal. |
| C157 | Calling a binner leaves the raw dataset as it was | BinSpec | the attributes after __call__; filter and set lemmas. |
| C158 | Clock conversions in double precision | FloatTime | the conversions of Model/Time.v with every operation rounded to 53 bits; error bound per power of two and monotonicity of the rounding. |
| C159 | MATLAB dates in double precision | FloatTime | date2matlab and matlab2date rounded; sum of the errors of four roundings. |
| C160 | Position from WinRiver2 GGA sentences | RdiGps | The reads of read_winriver2 as a list of fields at absolute places; IEEE bits against a relational specification; rounding to 24 bits. |
| C161 | Time from WinRiver2 GGA sentences | RdiGps | The text hhmmss.cc digit by digit, the calendar by counting seconds from 1970; the midnight case by running the model on a two-ensemble file. |
| C162 | Speed, course, depth and heading from WinRiver2 sentences | RdiGps | As C160. |
| C163 | Ensembles without a GPS fix show none | RdiGps | By running the model on files of three ensembles. |
| C164 | Blocks are read where the header says | RdiGps | A reference reader with absolute positions is the reader of the model, by induction on the offsets; witnesses by running the model. |
| C165 | A Vector file becomes a dataset of its samples | ReadVector | The arrays of the reading loop (C104), decoded, timed, interpolated, cropped and dated; the sample at each position is followed through all steps; system data at position k come from a block after k samples, so the times are on the clock. |
| C166 | Attitude of a Vector between its system data | ReadVector | Interpolation in reconstructed times equals the modelled interpgaps (C10) when all times are there; last system block before a sample wins. |
| C167 | IMU data of a Vector belong to their samples | ReadVector | The IMU entry of a sample is the last message before the next sample; the table of places, signs and factors is checked for each message kind. |
| C168 | An AWAC file becomes a dataset of its profiles | ReadAwac | whole chain from the bytes behind the header to the variables of the dataset: the arrays of the loop (Model.NortekFile, Model.NortekGuess), NaN and zeros where nothing was written, _handle_nan, times to dates |
| C169 | A dataset survives a MATLAB file | MatFile | save_mat, scipy's squeezing and load_mat over the model of _create_dataset; induction over the variables with the carried tag as state; clock conversions composed in double precision. What fails is shown by theorems for all datasets or by witnesses. |
| C170 | A Signature file becomes a dataset of its pings | ReadSig | whole chain from the bytes to the variables: index and reading loop (Model.Ad2cpIndex), arrays (Model.ReadSig), scaling, reorganisation and reduction (Model.SigData); the last value stored in a column is that of its ensemble because an ensemble has one record of an id |
| C171 | The configuration at the start of a Signature file | SigHead | The text of the first record (nortek2.py 177-211: splitting of lines, keys, parameters, numbers; uses in `_reorg` 444 and `_reduce` 612-655) from characters to values. Proved for every list of commands and other lines: the number written for each parameter is found under its command, other lines in order, and burst rate, matrix, model and beam angle follow. Partial: names that begin with G, E or T are stripped of these letters (`lstrip('GET')`), commands that occur twice, empty lines and quoted commas stop the reader, beam angles below ten degrees stop it and decimals of angles are dropped (refuted with witnesses). |
| C172 | A TRDI file becomes a dataset whose velocities turn into earth velocities | Trdi | Model/ReadRdi.v puts the reader of Model/RdiFile.v, the matrices of Model/Euler.v, [_set_rdi_declination] and [rotate2] together. Spec/Trdi.v has the manual's formulas. Proof: values and settings by C119 and C122, the dataset is admissible, then C81, C04 (ship), C06 and C76. |
| C173 | A wrong clock costs a TRDI file no more than the time of the ensemble | Trdi | On the same model: the time of the first ensemble decides whether there is a dataset; refuted for the first, proved for the others. |
| C174 | An AWAC file read and rotated to 'earth' has the velocities of the manufacturer's formulas | NortekEarth | From the bytes of an AWAC file to earth velocities: Model/NortekEarth.v joins the reader (C168), the orientation matrices, the declination and rotate2. Specification: the matrices of /repo/refs/Transform.m (Spec/NortekEarth.v). General lemma for the value as read, then the cases in which it is the manufacturer's value and those in which it is not. |
| C175 | A Vector file read and rotated to 'earth' has the velocities of the manufacturer's formulas | VectorEarth | From the bytes of a Vector file to earth velocities: open_vector (Model/NortekEarth.v) joins the reader (C165, C166), the orientation flag (C108), the orientation matrices (C83: last attitude continued), the declination and rotate2. Specification: the matrices of /repo/refs/Transform.m (Spec/NortekEarth.v) at the angles of Spec/VectorEarth.v. |
| C176 | A Signature file read and rotated to 'earth' has the vectors of the manufacturer's formulas | SigEarth | From the bytes of a Signature file to earth velocities: open_signature (Model/SigEarth.v) joins the reader (C170), the attributes that _reorg makes (frame, mounting, rotated variables, labels), the orientation matrices, _set_coords, the declination and rotate2. Specification: the matrices of the manufacturer's script (Spec/SigEarth.v). |
| C177 | The ranges of a Signature dataset are the distances of the cell centres | SigRange | The ranges that _reduce computes from the pings of a file (Model/SigRange.v on top of C170's reader), against the distances of Spec/SigRange.v; the unit of the blanking is the status bit named in nortek2_lib.py:416. |
| C178 | The header of a Nortek file sets how its data are read | NortekHead | struct.unpack as an interpreter of formats; the settings at the places of the manual |
| C179 | Nortek files from their first byte to earth velocities and ranges | NortekHead | read_nortek from the first byte; ranges of AWACs |
| C180 | Attributes of Nortek datasets are the recorded settings | NortekAttrs | The dictionaries of nortek.py:486-618 as lists of names and values built from the unpacked blocks; the specification is a table of places, bits and meanings after the manual. Proved by locating each entry of the struct format and by a decision that no name occurs twice. |
| C181 | Dates become text one by one, without loss, and sort like dates | DateText | datetime.strftime as an interpreter of formats over character codes; decimal notation by division. Order by comparing notations of equal length digit by digit. |
| C182 | The status of a Signature is reported ping by ping | SigStatus | Bits as testbit; [_collapse] of a vector of zeros and ones is the majority, 1 on a tie. |

## Which functions are modelled

Per source file of `/repo/dolfyn`. A function is listed as modelled when a definition in the
file of `theories/Model` named after it cites lines of it; the comment there says what was
simplified. Everything else is not modelled, and no theorem speaks about it.

**_version.py**

* not modelled: `ver2tuple`

**adp/clean.py**

* modelled: `set_range_offset` (CleanAdp), `find_surface` (CleanAdp, MedFilt), `find_surface_from_P` (CleanAdp), `nan_beyond_surface` (CleanAdp), `correlation_filter` (CleanAdp), `medfilt_orient` (MedFilt), `val_exceeds_thresh` (CleanAdv)
* not modelled: `fillgaps_time`, `fillgaps_depth`

**adp/turbulence.py**

* modelled: `_diffz_first` (BeamStress), `_diffz_centered` (BeamStress), `_diffz_centered_extended` (BeamStress), `ADPBinner.__init__` (BeamStress), `ADPBinner._diff_func` (BeamStress), `ADPBinner.calc_dudz` (BeamStress), `ADPBinner.calc_dvdz` (BeamStress), `ADPBinner.calc_dwdz` (BeamStress), `ADPBinner._stress_func_warnings` (BeamStress), `ADPBinner._check_orientation` (BeamStress), `ADPBinner._beam_variance` (BeamStress), `ADPBinner.calc_stress_4beam` (BeamStress), `ADPBinner.calc_stress_5beam` (BeamStress), `ADPBinner.calc_dissipation_LT83` (Dissipation), `ADPBinner.calc_dissipation_SF` (Dissipation), `ADPBinner.calc_ustar_fit` (Dissipation)
* not modelled: `ADPBinner.calc_shear2`, `ADPBinner.calc_doppler_noise`, `ADPBinner.check_turbulence_cascade_slope`

**adv/clean.py**

* modelled: `clean_fill` (CleanAdv), `_interp_nan` (CleanAdv), `fill_nan_ensemble_mean` (CleanAdv), `spike_thresh` (CleanAdv), `range_limit` (CleanAdv), `_calcab` (Despike), `_phaseSpaceThresh` (Despike), `GN2002` (Despike)

**adv/motion.py**

* modelled: `_get_body2imu` (Motion), `CalcMotion._check_filtfreqs` (Motion), `CalcMotion._set_accel` (Motion), `CalcMotion._check_duty_cycle` (Motion), `CalcMotion.reshape` (Motion), `CalcMotion._set_acclow` (Motion), `CalcMotion.calc_velacc` (Motion), `CalcMotion.calc_velrot` (Motion), `_calc_probe_pos` (Motion), `correct_motion` (Motion)
* not modelled: `CalcMotion.__init__`

**adv/turbulence.py**

* modelled: `ADVBinner.__call__` (BinSpec), `ADVBinner.calc_stress` (Vel), `ADVBinner.calc_csd` (BinSpec), `ADVBinner.calc_doppler_noise` (Dissipation), `ADVBinner.check_turbulence_cascade_slope` (Dissipation), `ADVBinner.calc_epsilon_LT83` (Dissipation), `ADVBinner.calc_epsilon_SF` (Dissipation), `ADVBinner._up_angle` (Dissipation), `ADVBinner._calc_epsTE01_int` (Dissipation), `ADVBinner.calc_epsilon_TE01` (Dissipation), `ADVBinner.calc_L_int` (Dissipation)
* not modelled: `calc_turbulence`

**binned.py**

* modelled: `TimeBinner.__init__` (BinSpec, DoAvg), `TimeBinner._outshape` (Reshape), `TimeBinner._parse_nfft` (DoAvg), `TimeBinner._parse_nfft_coh` (DoAvg), `TimeBinner._check_ds` (CheckDs), `TimeBinner._new_coords` (DoAvg), `TimeBinner.reshape` (Covariance, Reshape), `TimeBinner.detrend` (Stats), `TimeBinner.demean` (Stats), `TimeBinner.mean` (Stats), `TimeBinner.var` (Stats), `TimeBinner.std` (Stats), `TimeBinner.calc_psd_base` (BinSpec, Psd), `TimeBinner.calc_csd_base` (BinSpec, Psd), `TimeBinner.calc_freq` (Psd)
* not modelled: `TimeBinner._outshape_fft`, `TimeBinner._parse_fs`, `TimeBinner._parse_nbin`

**io/api.py**

* modelled: `_check_file_ext` (FileNames), `read` (FileNames), `save` (SaveLoad), `load` (SaveLoad), `save_mat` (MatFile), `load_mat` (MatFile)
* not modelled: `_decode_cf`, `read_example`

**io/base.py**

* modelled: `_get_filetype` (FileNames), `_find_userdata` (FileNames), `_read_userdata` (FileNames), `_handle_nan` (HandleNan, ReadRdi, ReadVector), `_create_dataset` (CreateDataset, MatFile, ReadRdi, SigData, SigEarth)
* not modelled: `_abspath`

**io/nortek.py**

* modelled: `read_nortek` (NortekEarth, NortekHead, ReadAwac, ReadVector), `_bcd2char` (Nortek), `_int2binarray` (Nortek), `_NortekReader.__init__` (Nortek, NortekAttrs, NortekEarth, NortekFile, NortekGuess, NortekHead), `_NortekReader.init_ADV` (NortekAttrs, NortekGuess, NortekHead, ReadVector), `_NortekReader.init_AWAC` (NortekAttrs, NortekGuess, NortekHead, ReadAwac), `_NortekReader.read` (NortekFile), `_NortekReader.findnext` (Nortek), `_NortekReader.read_id` (NortekFile), `_NortekReader.readfile` (NortekFile, NortekGuess), `_NortekReader.findnextid` (NortekGuess), `_NortekReader.code_spacing` (NortekGuess), `_NortekReader.checksum` (Nortek), `_NortekReader.read_user_cfg` (Nortek, NortekAttrs, NortekData, NortekFile, NortekHead), `_NortekReader.read_head_cfg` (NortekAttrs, NortekFile, NortekHead), `_NortekReader.read_hw_cfg` (NortekAttrs, NortekFile, NortekHead), `_NortekReader.rd_time` (Nortek), `_NortekReader.read_vec_data` (NortekData, NortekFile), `_NortekReader.read_vec_checkdata` (NortekFile), `_NortekReader.sci_vec_data` (ReadVector), `_NortekReader.sci_vno_data` (ReadVector), `_NortekReader.read_vec_hdr` (NortekFile), `_NortekReader.read_vec_sysdata` (NortekData, NortekFile), `_NortekReader.sci_vec_sysdata` (NortekData, ReadVector), `_NortekReader.read_microstrain` (NortekFile, ReadVector), `_NortekReader.sci_microstrain` (Microstrain, ReadVector), `_NortekReader.read_awac_profile` (NortekData, NortekFile, ReadAwac), `_NortekReader.sci_awac_profile` (NortekHead, Reduce), `_NortekReader.read_awac_waves_hdr` (NortekFile), `_NortekReader.read_awac_waves` (NortekFile), `_NortekReader.read_vno_event` (NortekFile), `_NortekReader.read_vno_data` (NortekFile)
* not modelled: `_bitshift8`, `_NortekReader.filesize`, `_NortekReader.pos`, `_NortekReader.init_VNO`, `_NortekReader.readnext`, `_NortekReader._init_data`, `_NortekReader._sci_data`, `_NortekReader.read_vno_hdr`, `_NortekReader.dat2sci`, `_NortekReader.__exit__`, `_NortekReader.__enter__`, `_crop_data`, `_recatenate`

**io/nortek2.py**

* modelled: `read_signature` (ReadSig, SigData, SigEarth, SigRange), `_Ad2cpReader.__init__` (Ad2cpIndex), `_Ad2cpReader._calc_lastblock_iswhole` (Ad2cpIndex), `_Ad2cpReader._check_nortek` (Ad2cpIndex), `_Ad2cpReader._reopen` (Ad2cpIndex), `_Ad2cpReader._read_filehead_config_string` (Ad2cpIndex, SigHead), `_Ad2cpReader._init_burst_readers` (Ad2cpIndex), `_Ad2cpReader.init_data` (Ad2cpIndex, ReadSig, SigData), `_Ad2cpReader._read_hdr` (Ad2cp, Ad2cpIndex, ReadSig), `_Ad2cpReader._read_str` (Ad2cpIndex, ReadSig), `_Ad2cpReader._read_burst` (Ad2cpIndex, ReadSig), `_Ad2cpReader.readfile` (Ad2cp, Ad2cpIndex, ReadSig, SigData), `_Ad2cpReader._advance_ens_count` (Ad2cpIndex), `_Ad2cpReader.sci_data` (SigData), `_altraw_reorg` (SigData), `_reorg` (Ad2cpIndex, SigData, SigEarth, SigHead, SigRange, SigStatus), `_clean_dp_skips` (SigData), `_reduce` (Reduce, SigData, SigHead, SigRange), `split_dp_datasets` (SigData)

**io/nortek2_defs.py**

* modelled: `_nans` (SigData), `_format` (Ad2cp), `_DataDef.__init__` (Ad2cp), `_DataDef.init_data` (Ad2cp, SigData, SigRange), `_DataDef.read_into` (Ad2cp, SigData), `_DataDef.format` (Ad2cp), `_DataDef.read` (Ad2cp), `_DataDef.read2dict` (Ad2cp, SigData, SigRange), `_DataDef.sci_data` (Ad2cp, SigData, SigRange), `_DataDef.data_units` (Ad2cp), `_DataDef.data_longnames` (Ad2cp), `_DataDef.data_stdnames` (Ad2cp), `_LinFunc.__init__` (SigData), `_LinFunc.__call__` (SigData), `_calc_bt_struct` (Ad2cp), `_calc_echo_struct` (Ad2cp, SigData), `_calc_burst_struct` (Ad2cp)

**io/nortek2_lib.py**

* modelled: `_reduce_by_average` (Reduce, SigData), `_reduce_by_average_angle` (Reduce, SigData), `_calc_time` (SigData), `_create_index` (Ad2cpIndex), `_check_index` (Ad2cpIndex), `_boolarray_firstensemble_ping` (Ad2cpIndex), `get_index` (Ad2cpIndex), `crop_ensembles` (Ad2cpIndex), `_BitIndexer.__init__` (Ad2cp), `_BitIndexer._data_is_array` (Ad2cp), `_BitIndexer.nbits` (Ad2cp), `_BitIndexer._get_out_type` (Ad2cp), `_BitIndexer.__getitem__` (Ad2cp), `_getbit` (Ad2cp), `_headconfig_int2dict` (Ad2cp), `_status02data` (SigStatus), `_status2data` (Ad2cp, SigStatus), `_alt_status2data` (Ad2cp, SigData), `_beams_cy_int2dict` (Ad2cp), `_isuniform` (Ad2cp), `_collapse` (Ad2cp), `_calc_config` (Ad2cpIndex, SigData)

**io/nortek_defs.py**

* modelled: `_VarAtts.shape` (ReadVector), `_VarAtts._empty_array` (ReadVector)
* not modelled: `_VarAtts.__init__`, `_VarAtts.sci_func`

**io/rdi.py**

* modelled: `read_rdi` (RdiFile, ReadRdi), `_remove_gps_duplicates` (RdiPost), `_set_rdi_declination` (RdiPost), `_RDIReader.__init__` (RdiBlocks, RdiFile), `_RDIReader.code_spacing` (RdiBlocks, RdiFile), `_RDIReader.read_hdr` (RdiFile), `_RDIReader.check_for_double_buffer` (RdiFile), `_RDIReader.load_data` (RdiBlocks, RdiFile, ReadRdi), `_RDIReader.read_buffer` (RdiFile), `_RDIReader.search_buffer` (RdiFile), `_RDIReader.checkheader` (RdiFile), `_RDIReader.read_hdrseg` (RdiFile), `_RDIReader.check_offset` (RdiFile), `_RDIReader.read_dat` (RdiBlocks), `_RDIReader.read_fixed` (RdiBlocks), `_RDIReader.read_fixed_sl` (RdiBlocks), `_RDIReader.read_cfgseg` (RdiBlocks), `_RDIReader.read_var` (RdiBlocks), `_RDIReader.switch_profile` (RdiBlocks), `_RDIReader.read_vel` (RdiBlocks), `_RDIReader.read_corr` (RdiBlocks), `_RDIReader.read_amp` (RdiBlocks), `_RDIReader.read_prcnt_gd` (RdiBlocks), `_RDIReader.read_status` (RdiBlocks), `_RDIReader.read_bottom` (RdiBlocks), `_RDIReader.read_alt` (RdiBlocks), `_RDIReader.read_vmdas` (RdiBlocks), `_RDIReader.read_winriver2` (RdiBlocks), `_RDIReader.read_winriver` (RdiBlocks), `_RDIReader.skip_Ncol` (RdiBlocks), `_RDIReader.skip_Nbyte` (RdiBlocks), `_RDIReader.read_nocode` (RdiBlocks), `_RDIReader.skip_nocode` (RdiBlocks), `_RDIReader.cleanup` (RdiFile, ReadRdi, Reduce), `_RDIReader.finalize` (RdiFile, ReadRdi)
* not modelled: `_RDIReader.mean`, `_RDIReader.init_data`, `_RDIReader.print_progress`, `_RDIReader.print_pos`, `_RDIReader.remove_end`, `_RDIReader.__enter__`, `_RDIReader.__exit__`

**io/rdi_defs.py**

* modelled: `_variable_setlist.__iadd__` (RdiBlocks), `_ensemble.__getitem__` (RdiBlocks), `_ensemble.__init__` (RdiBlocks), `_ensemble.clean_data` (RdiBlocks, RdiFile)
* not modelled: `_get`, `_in_group`, `_pop`, `_setd`, `_idata`, `_get_size`

**io/rdi_lib.py**

* modelled: `bin_reader.__init__` (RdiBlocks), `bin_reader.tell` (RdiBlocks), `bin_reader.seek` (RdiBlocks), `bin_reader.reads` (RdiBlocks), `bin_reader.read` (RdiBlocks), `bin_reader.read_ui8` (RdiBlocks), `bin_reader.read_float` (RdiBlocks), `bin_reader.read_double` (RdiBlocks), `bin_reader.read_i8` (RdiBlocks), `bin_reader.read_ui16` (RdiBlocks), `bin_reader.read_i16` (RdiBlocks), `bin_reader.read_ui32` (RdiBlocks), `bin_reader.read_i32` (RdiBlocks)
* not modelled: `bin_reader.pos`, `bin_reader.__enter__`, `bin_reader.__exit__`

**rotate/api.py**

* modelled: `rotate2` (Rotate), `calc_principal_heading` (Principal), `set_declination` (Rotate), `set_inst2head_rotmat` (MatFile, Rotate)

**rotate/base.py**

* modelled: `_make_model` (Rotate), `_check_rotmat_det` (Rotate), `_set_coords` (Rotate), `_beam2inst` (CreateDataset, Linalg, Rotate), `euler2orient` (CreateDataset, Euler, MatFile), `orient2euler` (CreateDataset, Euler), `quaternion2orient` (CreateDataset, Euler), `calc_tilt` (Euler)
* not modelled: `_check_rotate_vars`

**rotate/rdi.py**

* modelled: `_inst2earth` (Rotate), `_calc_beam_orientmat` (Euler), `_calc_orientmat` (Euler)

**rotate/signature.py**

* modelled: `_inst2earth` (Linalg, Rotate)

**rotate/vector.py**

* modelled: `_beam2inst` (Rotate), `_rotate_inst2head` (Linalg, Rotate), `_check_inst2head_rotmat` (Rotate), `_inst2earth` (Linalg, Motion, Rotate), `_earth2principal` (Rotate), `_calc_omat` (Euler, NortekEarth), `_euler2orient` (Euler)

**time.py**

* modelled: `_fullyear` (Time), `epoch2dt64` (FloatTime, ReadRdi, Time), `dt642epoch` (FloatTime, RdiBlocks, Time), `date2dt64` (MatFile, RdiBlocks), `dt642date` (FloatTime, RdiBlocks), `epoch2date` (FloatTime, Time), `date2str` (DateText), `date2epoch` (FloatTime, Time), `date2matlab` (FloatTime, Time), `matlab2date` (FloatTime, Time), `_fill_time_gaps` (Gaps)

**tools/misc.py**

* modelled: `detrend` (Stats), `group` (Group), `slice1d_along_axis` (Slice1d), `fillgaps` (Gaps), `interpgaps` (Gaps, ReadVector), `medfiltnan` (MedFilt), `convert_degrees` (Angles)
* not modelled: `_nans`, `_nans_like`, `_find`

**tools/psd.py**

* modelled: `psd_freq` (Psd), `_getwindow` (Psd), `stepsize` (Psd), `coherence` (BinSpec, Psd), `cpsd_quasisync` (Psd), `cpsd` (Psd), `psd` (Psd), `phase_angle` (Psd)

**velocity.py**

* modelled: `Velocity.u` (DoAvg), `Velocity.v` (DoAvg), `Velocity.w` (DoAvg), `Velocity.U` (DoAvg), `Velocity.U_mag` (DoAvg, Vel), `Velocity.U_dir` (Vel), `Velocity.E_coh` (Vel), `Velocity.I_tke` (Vel), `Velocity.I` (Vel), `Velocity.tke` (Vel), `VelBinner.do_avg` (DoAvg), `VelBinner.do_var` (DoAvg), `VelBinner.calc_coh` (BinSpec), `VelBinner.calc_phase_angle` (BinSpec), `VelBinner.calc_acov` (Covariance), `VelBinner.calc_xcov` (BinSpec, Covariance), `VelBinner.calc_ti` (Vel), `VelBinner.calc_tke` (Vel), `VelBinner.calc_psd` (BinSpec)
* not modelled: `Velocity.rotate2`, `Velocity.set_declination`, `Velocity.set_inst2head_rotmat`, `Velocity.save`, `Velocity.__init__`, `Velocity.__getitem__`, `Velocity.__contains__`, `Velocity.__repr__`, `Velocity.variables`, `Velocity.attrs`, `Velocity.coords`, `Velocity.upvp_`, `Velocity.upwp_`, `Velocity.vpwp_`, `Velocity.upup_`, `Velocity.vpvp_`, `Velocity.wpwp_`
