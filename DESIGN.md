# Formal model of OpenNTN in Rocq: design

Subject: `/repo` (ant-uni-bremen/OpenNTN, pinned). Nothing there was run or changed; the
model is a reading of the source text.

## 1. Modelling conventions

* **Numbers.** TensorFlow floats are idealised as real numbers (`R` of the Coq standard
  library). Rounding, overflow, NaN and infinities of IEEE arithmetic are *not* modelled, with
  two exceptions: the literal `-inf` of the parameter tables, modelled by an explicit extended
  value, and the line-of-sight phase, the satellite distance and the satellite's Doppler rotation, whose roundings are modelled in `M_Float` (C87, C94, C95), the sum giving the position of a generated UT (`M_Position`, C98), the cluster delays and powers (`M_PowerFp`, C102), the LoS angles (`M_AngleFp`, C105), and the power budget of a link (`M_BudgetFp`, C109). A division whose divisor may be 0 is either guarded by a hypothesis stated in the
  theorem or modelled with an explicit error/undefined value; no theorem relies on `x/0`.
* **Tensors** are functions from indices to values together with explicit sizes; axes along
  which the code sorts, gathers or reduces are lists or index functions. `expand_dims`,
  broadcasting and dtype casts disappear; transposes are index permutations.
* **Randomness** is an explicit argument: every `tf.random.*` call becomes an oracle value,
  constrained only by its documented range. No probability theory is used; distributional
  properties are stated as identities/ranges that hold for every draw; covariances are the
  bilinear forms of the linear map from independent draws to variates.
* **Exceptions** are values: `Ok a` or `Err e`.
* **State** (`SystemLevelScenario`, `SystemLevelChannel`) is a record and a step function
  over operations; histories are lists of operations.
* **Parameter tables** (24 JSON files) are transcribed mechanically, literal by literal, into
  exact decimals. Universal statements about them are finite and decided by computation.

Files: `M_*.v` model, `S_*.v` small separate specifications, `L_*.v` lemmas, `P_*.v` property
theorems only (each closed by `exact`, with `Print Assumptions` below it and a non-vacuity
`Example` beside it).

## 2. Plan per property

| id | modelled | proof |
|---|---|---|
| C01 | `__init__` as a validation function returning `Ok`/`Err` | case analysis, iff |
| C02 | file-name selection for three environments, list of shipped files | case analysis on bands |
| C03 | banker's rounding `round(e/10)*10` on reals | floor lemmas, uniqueness |
| C04 | JSON tables as data, `_load_params`, `get_param` | finite check by computation, lifted |
| C05 | same data | finite check by computation, lifted |
| C06 | `set_topology` as a step function | induction over histories, refinement to "last given" |
| C07 | same | case analysis; state equality |
| C08 | same | refuted by a two-call history; the actual law is proved |
| C09 | same, derived quantities as functions of inputs | invariant; refuted for weather |
| C10 | `SystemLevelChannel` state machine with a random stream | induction over histories |
| C11 | same | induction over histories |
| C12 | `_sample_los`, `sample_bernoulli` | case analysis, histories |
| C13 | `_sample_indoor_distance` | field arithmetic |
| C14 | slant-range formula | quadratic root, monotonicity |
| C15 | batch-0 height read | refuted by a two-example batch; right exactly for the examples with the first example's height (`L_Exact`) |
| C16 | `atan2`, wrap, degrees | trigonometry; arrival direction refuted, right exactly straight below the satellite (`L_Exact`) |
| C17 | `get_param` tensor, log mean/std stack | case analysis |
| C18 | LSP sampling | bounds on min/max and powers of ten |
| C19 | `_add_param` sequence on a 7x7 matrix over the tables | exact LDL^T over rationals, lifted to all real vectors |
| C20 | filter matrix and exponential; the public method `spatial_correlation_matrix` as `spatial_correlation` in `M_Spatial` | symmetry; positive definite because exp(-d/D) in the plane is a positive-definite kernel (proved from the Gaussian mixture, `L_Kernel.v`); co-located UTs: C68 |
| C21 | cluster mask | counting lemma; refuted for indoor links (`L_Exact`) |
| C22 | delays: log, min, sort, LoS scaling | sorting permutation lemmas; polynomial bound |
| C23 | powers | sums over lists |
| C24/C25 | angle generation and wraps | floor-mod lemmas |
| C26 | offset constants | exact sums: refuted for rays, proved for CDL |
| C27 | argsort + gather | permutation lemmas |
| C28/C29 | argsort, gather, sub-cluster reduction, concatenation, final sort | permutation and sum lemmas |
| C30 | K-factor combination | algebra |
| C31 | transposes in `__call__` | index permutation, end to end |
| C32/C33 | step 12, path-loss sample | algebra; C33 refuted by two streams |
| C34 | Doppler exponent | trigonometric identities, Cauchy-Schwarz |
| C35 | Faraday matrix | trigonometric identities |
| C36/C37 | rotation matrices, LCS angles, psi | ring + trigonometric identities |
| C38 | phase matrix | modulus lemmas |
| C39/C40 | panels and arrays | index arithmetic, sums |
| C41 | slant selection | refuted for VH |
| C42 | element patterns | bounds |
| C43 | path-loss functions | monotonicity of log, positivity |
| C44/C45 | topology generation | geometry; C45 refuted |
| C46 | name resolution of the interferer generator | every run is an error |
| C47 | defaulting function | case analysis over subsets |
| C48 | relocation | rotation identities |
| C49..C52 | conversion utilities | finite sums, roots of unity |
| C53 | correlation matrices | induction on sizes |
| C54/C55 | TDL/CDL constructors and tables | finite check, algebra |
| C56 | list-of-lines editing | induction over lines and runs |
| C57 | orbital speed and Doppler | algebra |
| C58 | `compute_pathloss_scintilation`, both branches | exact formula; path length refuted; averaging factor undefined for large apertures |
| C59 | tensor types of `set_topology` and of the UT drop under both precisions | computation over types for every table; 'double' refuted |
| C60 | LSP variates as linear maps of draws | covariance algebra; block structure and uniqueness of Cholesky factors give the cross-correlation of every UT up to a factor of at most 1; two-UT cross-correlation refuted |
| C61 | departure zenith offset | refuted (radians added to degrees) |
| C62 | XPR sampling | logarithm identities |
| C63 | `AntennaElement`/`AntennaPanel`/`PanelArray` constructors | case analysis, iff |
| C64 | direct-ray phase | refuted (sign) |
| C65 | field transformation | equality with the rotated local basis vectors, for all orientations |
| C66 | ray coefficients with the ends exchanged | algebra; below 600 km (`_partial`), the exact law and a channel-level refutation from 600 km on (`L_Duality`) |
| C67 | channel output shape and delays | invariants through rays, sub-clustering, sorting |
| C68 | Cholesky inside `set_topology` | positive definiteness iff distinct positions per state |
| C69/C70 | generated topology fed to the channel | composition of models |
| C71/C72/C74 | TDL Doppler, spatial correlation, delay spread | algebra, finite data; C71/C72 partly refuted |
| C73 | conversions composed | roots of unity, sinc at integers |
| C75 | TDL and CDL tables | finite data, lifted to all spreads |
| C76 | positional argument handling of the channel call | case analysis |
| C77 | outdoor-to-indoor loss functions (never called by the library) on the state reached by an updating call | unfolding of the update; monotonicity of log and power mixtures |
| C78 | every public property of the scenario, by name, on the reachable states of any call history | invariant over call histories; `additional_pathloss` refuted |
| C79 | the readable properties of `AntennaPanel` and `PanelArray` by name | from the constructor lemmas of C39-C41; `polarization` of a panel refuted |
| C80 | Python argument binding (`call_with`) and the constructor chain class -> scenario -> base (`M_Objects`) | general lemma on positions, keywords and defaults; acceptance from C01; documented defaults and example refuted |
| C81 | TDL/CDL properties by name, `delay_spread` histories, CDL coupling and velocity (`M_Objects`) | induction on the assignment list and on the clusters, from the profiles of C54/C55 |
| C82 | one ray between two antennas (`M_Coeff`, `M_Antenna`); spec in `S_Ray`: field vectors rotated with the array, 7.5-22 and 7.5-29 | uniqueness of local angles and of transversal components, the partition of C40, the rotation lemma of C65; directions along the array's own vertical axis are excluded (azimuth undefined there) |
| C83 | moments of the coefficients of a link over the phase draws (`M_Coeff`); spec in `S_Mean`: a mean is any linear functional under which phasors of different draws are uncorrelated and have mean zero (an instance is built) | path order independent of the phases (refinement of C28/C29), every path a weighted sum of distinct phasors by C82, orthogonality by induction on the ray lists |
| C84 | mean power of one link of the channel object (`M_Channel` over `M_Coeff`, `M_Rays`, `M_Lsp`); spec in `S_MeanLink`: calls differing only in their phases, power summed over the paths; hypothesis: no ray along the vertical axis of an array | composition of C31 (axes and factors), C22/C23/C62 (rays), C18 (positivity) and C83; the omnidirectional case by computing the fields of C82; instance: Dense Urban NLoS at 2 GHz |
| C85 | `generate_uts_topology` for both drop areas (`M_TopoGen`); spec in `S_TopoGen`: rotation about a centre, direction of the axis | rotation identities, relation between the two drops with the same draws |
| C86 | `AntennaElement._compute_gain` (`M_Gain`); spec in `S_Gain`: mean over a grid of one degree | telescoping sum of sines, maximum attained at boresight |
| C87 | rounding to p significant bits and the rounded operations of the LoS phase (`M_Float`, no exponent limits); spec in `S_Float`: the exact phase | relative errors composed over the operations; multiples of the spacing of floats; refuted for single precision |
| C88 | `cir_to_time`, `cir_to_ofdm` of `M_Convert`; spec in `S_Energy`: Riemann integral of the power over the band | Bessel's inequality from a positive derivative of an explicit primitive; equality when the residual vanishes |
| C89 | output of the channel object (`M_Channel`) fed to `cir_to_ofdm` (`M_Convert`); spec in `S_Wideband`: tensors that hold the output of a link | different paths are uncorrelated and delays do not depend on the phases (C83), so cross terms vanish; C84's gain; instance: the link of C84 |
| C90 | two executions of the channel object (`M_Channel` and everything below it); spec in `S_Isolation`: examples that agree in their first UTs, an example taken alone with its draws | relational argument stage by stage (geometry, LoS, path loss, LSPs, rays, coefficients); leading rows of Cholesky factors by induction on the size; success of the smaller topology from C68. The altitude of the first example's satellite must agree (finding C15) |
| C91 | two executions of the channel object; spec in `S_Motion`: positions turned by an angle and shifted, velocities turned, bearings advanced (up to whole turns) | relational argument as for C90; azimuths of the direct ray and of the generated rays advance by the angle up to whole turns, so that directions, array offsets, field responses and the Doppler exponent are unchanged. Excluded: a turn for a UT straight below its satellite (C91_nadir shows what happens there) |
| C92 | two executions of the channel object with possibly different Doppler switch, velocities and sampling frequency; spec in `S_Evolution`: closing speed of the satellite and the phase of a distance at the carrier | same relational core as C91 (`scene_core`): the Doppler factors of all rays differ by one common factor, which commutes with the ray sums, the sorting and the Ricean combination |
| C93 | `compute_pathloss_additional` line by line (`M_Rain`), math.sqrt raising on negative numbers, tensor-to-number conversion raising unless there is one element | false of the code; the frequency dependent constants are bounded over both carrier bands by certified fixed-point interval arithmetic (`L_RainNum`, 163 intervals checked by the kernel), hence the specific attenuation per GHz stays below 0.4 and the first square root has a negative argument in the uplink; in the downlink the path length is negative |
| C94 | `slant_range_fp` in `M_Float`: every operation of the distance formula followed by a rounding to 24 bits (radians in 53 bits); spec in `S_Range`: law of cosines for the triangle of the Earth's centre, the UT and the satellite | relative error analysis operation by operation (`near`); sin x >= x/2 on the first quadrant from the Taylor bound of the standard library; grid of rounded numbers. Accuracy to a fraction of a wavelength is false of the code |
| C95 | `sample_time_fp`, `sat_rotation_fp` and `sat_factor_fp` in `M_Float`; spec: `exact_phase` of `S_Float` at the distance v t | relative error analysis as for C94, rounding is odd, bound of the satellite speed from C57; grid of rounded numbers. False of the code for long calls |
| C96 | `install` in `M_Installer`: file system as a map from paths to files, directories and links, path resolution with the limit of 40 links, `pip`, `curl`, `python`, `cut`, `ln -s` and `rm` as in the scripts; the hook is `modify` of `M_Install`; spec: `S_Installer` | the three cases of `ln -s` (entry absent, entry leads to a directory, inner link there) as equations of file systems, induction over runs; refutations are stated for all machines of the kind |
| C97 | `slant_range`, `dist_2d` in `M_Geometry`, `gen_single_sector_topology` in `M_TopoGen`, `chan_set_topology` in `M_Channel`; spec: distance of positions, inequality of the two reported grids | law of cosines against the flat triangle, plane triangle inequality for the drop, bounds of sine and cosine up to 20 degrees. False of the code at low elevation |
| C98 | `stored_in`, `position_fp` in `M_Position` over `rnd` of `M_Float` and the generator of `M_TopoGen`; spec: coordinates and `dist_2d` of the unrounded topology | absolute rounding error below a power of two, bound of the beam centre by sin 10 degrees, plane triangle inequality; nearest multiples of 8 for the refutation, C68 for the refusal. False of the code for high orbits |
| C99 | `cloud_att`, `rain_yr` of `M_Rain`; spec `S_Cloud`: complex permittivity and droplet polarisability given by the equations they satisfy, rain regression tables in millionths | complex equations solved and shown to have one solution, positivity of both relaxations between 216 K and 990 K, monotone sine; fold lemma for the rain sums, cos 90 degrees = 0 for circular polarisation |
| C100 | `show_topology` of `M_Draw`: the arguments of the drawing calls, division by a zero extent as infinite or not a number; spec `S_Draw`: units, numbered nodes, extents, visible lines, local axes by the rotations of C36 | inversion of a drawn picture (C12, sizes from the update), filter and count lemmas, rotation of unit vectors, length computation. False of the code for UTs indoors, mixed units and flat scenes |
| C101 | `show_array`, `show_panel` of `M_Draw`; spec: index partition of C40, places of C39, `mark_fits` | from C39, C40, C41, C63 and C79. False of the code for type 'VH' |
| C102 | `unscaled_delays_fp`, `cluster_powers_fp` in `M_PowerFp` over `rnd` of `M_Float`, the sum as a tree whose leaves are any permutation of the clusters; spec: `r_delays`, `r_powers` of the exact generator (characterised by C22, C23) | rounding is exact on its own results; sorting is 1-Lipschitz (counting argument) and keeps unused clusters last; absolute error of the exponent, relative errors through exponential, product, sum tree and quotient |
| C103 | `chan_set_topology`, `chan_call` of `M_Channel`; spec: comparison with the calls of a new object, `settled` histories | stage by stage through the update: what is stored before the stage that raises; C31 gives the coefficient before and after, C90 that it is not 0. False of the code for refusals after the completeness check |
| C104 | `chan_set_topology`, `chan_call` of `M_Channel`; spec: `pick` and the renumbered draws of `S_Renumber`, covariance of `S_Lsp` | link by link as C90, with the draws of the parameters obtained by solving the two triangular factors forwards; covariances of one parameter from C60. False of the code for two parameters of one UT, from the witness of C60 with its UTs exchanged |
| C105 | `los_aod_fp` … `los_zoa_fp`, `wrap_fp` of `M_AngleFp`, on the rounding of `M_Float`; spec: the exact angles of `M_Geometry` and `direction` | relative errors through the differences, the distance and the quotient; mean value theorem for the arc tangent, branch by branch. False of the code at the upper end of the range, for every UT of a sector |
| C106 | `show_element` of `M_ElementDraw`; spec: `radiated` from the field components, `in_db`, `at_distance` of `S_ElementDraw` | the field carries the pattern (C42); nearest grid point; spherical coordinates. False of the code for the surface of an aperture: bounds of Bessel's integral at the grid point next to the main direction |
| C107 | `shuffle` and `gen_rays` of `M_Rays`; spec: `distinct_values`, `deals`, `recoupled` of `S_Coupling` | sorted lists with the same values are equal, so the sorter recovers the dealt order; every sorter (`L_Coupling`) |
| C108 | `gen_rays`, `chan_call`; spec: `rho_hat`, `steering`, `antenna_element` of `S_Ray` | with no spread the angle formulas collapse to the LoS angle; the property of a coefficient to carry one steering factor is closed under the sums of steps 10 and 11. False of the code where the tables give a spread within the cluster: two (azimuth) or three (zenith) of the fixed offsets of the rays cannot fold to one angle |
| C109 | `M_BudgetFp`: the operations of the free-space loss, the sum of the losses and the gain, each followed by a rounding to p bits; logarithm, power and square root correctly rounded; spec: `friis`, `loss_of`, `link_loss`, `amplitude_of` of `S_BudgetFp` | propagation of absolute errors in dB and of relative errors through the exponential; Machin-like bounds of pi for Friis; the distance by C94; rounding to p bits is monotone (`L_BudgetFp`) |
| C110 | `set_topology`, `sample_los` of `M_Scenario`, `M_Geometry`; probabilities as counts over all words of numerators 0..N-1, every N; spec: `outcome`, `handed`, `holds_for`, `favourable` of `S_LosFair` | the states do not influence the success of the call; enumeration of the words by induction on the links; threshold of the table value among k/N (`L_LosFair`) |
| C111 | `drop_uts_in_sector` and the generator of `M_TopoGen`; spec: `in_square`, `in_part`, `centre_distance` of `S_Drop` | each draw maps affinely onto its side of the square or its range of heights, speeds and headings, with one centre per call computed from the first draw alone (`L_Drop`). False of the code for batches and directions |

## 3. Trusted base

1. The kernel of Coq 8.16.1 (and `coqchk`).
2. The axioms printed by `Print Assumptions` under each theorem in `P_*.v`. All of them come
   from the Coq standard library. The list per theorem is in `ASSUMPTIONS.md`, generated by
   `tools/assumptions.py` from the compiler output. No axiom is added by this development, and
   no library other than the standard library is imported.
3. The reading of the Python text that the model records, with the idealisations of section 1
   and those stated at each definition. The generated data modules `D_*.v` are produced by
   `tools/gen_tables.py` from the JSON files, literal by literal; running it again and comparing
   with the committed files checks the transcription.

## 4. What is modelled, what is not

| file in /repo | modelled | not modelled |
|---|---|---|
| `OpenNTN/system_level_scenario.py` | constructor, `_load_params`, `get_param`, `set_topology`, distances, angles, indoor split, LoS sampling, cluster counts, tensor types, the readable properties (`M_Params`, `M_Geometry`, `M_Scenario`, `M_Dtype`, `M_Getters`) | `ut_array`, `bs_array` |
| `dense_urban/urban/sub_urban(_scenario).py` | file selection, LoS probability, LSP statistics, ZoD offset, constructors with argument binding (`M_Params`, `M_Scenario`, `M_Objects`) | - |
| `OpenNTN/lsp.py` | LSP sampling, cross and spatial correlation matrices with their Cholesky factors, `sample_pathloss`, outdoor-to-indoor losses (`M_Lsp`, `M_Channel`, `M_Getters`) | - |
| `OpenNTN/rays.py` | all functions (`M_Rays`) | - |
| `OpenNTN/channel_coefficients.py` | all functions (`M_Coeff`, `M_Cplx`) | debug output |
| `OpenNTN/antenna.py` | elements, panels, arrays, patterns, readable properties, `_compute_gain` and the pictures of elements, panels and arrays (`M_Antenna`, `M_Array`, `M_Gain`, `M_Draw`, `M_ElementDraw`); the Bessel function J1 is an argument, instantiated with Bessel's integral in `S_Bessel` | labels and layout of the pictures |
| `OpenNTN/system_level_channel.py` | constructor state, `set_topology`, `__call__`, `_step_12`, `show_topology` (`M_Channel`, `M_Invoke`, `M_Draw`) | legend and layout of the picture |
| `OpenNTN/utils.py` | grids, CIR conversions, correlation matrices, topology generators, defaults, path losses, orbital speed and Doppler, rain and cloud attenuation (`M_Convert`, `M_TopoGen`, `M_Pathloss`, `M_Rain`) | |
| `OpenNTN/tdl.py`, `OpenNTN/cdl.py` | constructors, tables, properties, TDL coefficients, CDL rays and coupling (`M_Links`, `M_Objects`) | the coefficient part of a CDL call: the call raises before |
| `post_install.py` (same text as `post_install_legacy.py` up to paths) | the line editing (`M_Install`) | file system errors, locating the package |
| `install.sh`, `install_legacy.sh` | all lines (`M_Installer`) | the network, pip itself (its outcome is an argument) |
| `setup.py`, notebooks, tests | - | all |

TensorFlow and Sionna primitives are modelled by their documented meaning: `tf.argsort` is a
parameter constrained to return a sorting permutation (any such function; theorems quantify over
it, `argsort` witnesses one), `tf.linalg.cholesky` is the usual recursion and fails on a
non-positive pivot, `tf.signal.fft` is the DFT sum.

## 5. Findings: properties the code does not have

Each is a theorem `..._refuted` with a witness (or for all inputs where stated).

| property | finding | where |
|---|---|---|
| C07 | a `set_topology` call that fails after storing its arguments leaves them stored | `system_level_scenario.py:607-670` |
| C08/C09 | weather arguments are reset to defaults when omitted, contrary to the docstring; a call giving only weather does not recompute the losses | `system_level_scenario.py:576-645` |
| C11 | after a failed first call, a later "successful" call without arguments leaves the channel unusable | `system_level_channel.py:140-155` |
| C15 | the satellite height of batch example 0 is used for the 3D distance of every example; two satellites make the call fail | `system_level_scenario.py:811-821` |
| C16 | the LoS zenith of arrival is ZoD - 180 degrees modulo 360 and the azimuth of arrival AoD + 180 degrees: turning both by 180 degrees turns the horizontal part twice, so the arrival direction points up to the satellite but horizontally away from it; it is right only straight below the satellite | `system_level_scenario.py:827-828` |
| C22 | for K below about -63 dB the delay scaling polynomial is negative, delays become negative | `rays.py:312-320` |
| C21, C23 | an indoor UT has no active cluster; its powers are 0/0 | `rays.py:205`, `:376-378` |
| C26 | offsets 1.1481 and -0.1481 replace the pair +-1.1481 (rays 15/16) | `rays.py:103-113` |
| C33 | disabling shadow fading leaves the shadow fading draw inside the basic path loss | `utils.py:1777-1782` |
| C41 | dual VH arrays get slants -45/+45 because `polarization` is compared with 'VH' | `antenna.py:526` |
| C45/C85 | UT bearing is atan(y/x) without quadrant; NaN for a UT exactly below the satellite | `utils.py:985` |
| C46 | the interferer generator always raises (undefined name) | `utils.py:1194-1430` |
| C54 | TDL accepts the name 'E' but has no table for it | `tdl.py:265-288` |
| C55 | calling a CDL model raises TypeError (missing Topology arguments) | `cdl.py:270-341` |
| C56 | an unterminated anchor line at the end of the host file is glued to the inserted line | `post_install.py:33-46` |
| C58 | effective path length has its square root around the whole denominator; averaging factor is undefined (root of a negative number) for large apertures | `utils.py:1720`, `:1729` |
| C59 | precision 'double' can never set a topology | `system_level_scenario.py:813`, `utils.py:1777` |
| C60 | with two UTs the cross-correlation between LSPs of one UT is weaker than requested (the spatial filter is applied per parameter after mixing) | `lsp.py:120-160` |
| C61 | the NLoS zenith offset is in radians and is added to degrees | `dense_urban_scenario.py:255-260` |
| C64 | the direct ray has phase +2 pi d/lambda | `channel_coefficients.py:1041` |
| C66 | from 600 km on a scattered ray is not reciprocal (Faraday rotation on the transmit side in both directions) | `channel_coefficients.py:875-880` |
| C71 | the satellite Doppler of TDL is in Hz/3600 and added to rad/s | `tdl.py:547-584` |
| C72 | a transmit-side correlation matrix gives wrong powers | `tdl.py:533-534` |
| C72 | the spatial correlation filter is applied after the specular component was added, so on the first tap of a LoS model the specular part is filtered too: with a correlation of 0.5 the second antenna gets more than 1.7 times the tap power | `tdl.py:480-535` |
| C79 | a panel's `polarization` cannot be read: the property is spelled `porlarization` | `antenna.py:336` |
| C80 | the documented defaults (street width 5 m, building height 20 m) are exchanged in the code (20 and 5); the documented example call omits the required `elevation_angle` and raises TypeError | `dense_urban.py:42-45`, `:94-98`, `:131`, same in `urban.py`, `sub_urban.py` |
| C87 | in single precision (the default, and by C59 the only precision in which a topology can be set) the phase 2 pi d / lambda of the LoS component exceeds 2^24 rad, so it is computed as a multiple of 2 rad (S band) or 16 rad (Ka band): its value modulo 2 pi is unrelated to the distance | `channel_coefficients.py:1030-1036` |
| C78 | `additional_pathloss` can never be read (the attribute is never set) | `system_level_scenario.py:663` |
| C93 | the rain and cloud routine raises in every supported configuration: the slant path is in km but divided by 1000 (uplink: square root of a negative number), satellite heights are in m but compared with a rain height in km (downlink), and several links cannot be converted to a Python number; this is why its call is commented out | `utils.py:1825-1948` |
| C94 | from 45 degrees elevation on the distance is computed as a multiple of 0.5 m (the difference of two numbers above 2^22), so it is wrong by up to several wavelengths | `system_level_scenario.py:813` |
| C95 | the rotation grows without reduction modulo 2 pi, so in single precision it is a multiple of half a radian after 4.2 million radians (0.7 s of samples at 40 GHz, 14 s at 2 GHz) | `channel_coefficients.py:606-618` |
| C96 | running the script a second time puts a link named `OpenNTN` to the package into the package itself (the link name of line 19 then leads to a directory); a blank in the host's directory (`cut -d' ' -f2`) or a failed `pip` adds the import although the module is missing, so the host can no longer be imported, with status 0; a file `post_install.py` of the user in the working directory is overwritten and deleted; a file named `tr38811` in the place of the link is kept while the import is added | `install.sh:6-22`, `install_legacy.sh:6-22` |
| C97 | the generator puts the beam centre by flat geometry (horizontal distance h cot e) while the reported 3D distance is the slant range over a sphere: up to 20 degrees elevation and from 600 km on every link of every generated topology has a 3D distance below its 2D distance; below 90 degrees the 3D distance at the beam centre is smaller than the distance of the two positions | `utils.py:585-588`, `system_level_scenario.py:799-813` |
| C98 | UTs are placed tens of thousands of kilometres from the origin of the coordinates: for a geostationary satellite below about 28 degrees elevation the x coordinate of the beam can exceed 2^26 m, where single precision has a spacing of 8 m; UTs drawn 7 m apart get the same position and the channel refuses the topology (the spatial correlation matrix is singular) | `utils.py:585-608` |
| C100 | the points of UTs indoors are not drawn (the call is commented out); stations and UTs are scaled to kilometres separately, so that a UT 700 m up appears above a satellite at 600 km and the axis labels are wrong for one of the two; the test for kilometres ignores negative coordinates; when all nodes share a coordinate (one UT below the satellite) every axis has length zero or is not a number | `system_level_channel.py:305-319, 343-352, 379-380` |
| C101 | a 'VH' array is drawn with a horizontal stroke for the first and a vertical stroke for the second polarisation, while its elements have slants -45 and +45 degrees (C41) | `antenna.py:699-702` |
| C103 | a topology refused by an exception stays in the object: two stations make every later channel call raise; UTs on top of each other leave the refused positions, LoS states and path losses combined with the earlier correlations, cluster masks and large scale parameters, and channel calls return that mixture without a warning | `system_level_channel.py:131-153`, `system_level_scenario.py:570-664`, `lsp.py:186-190` |
| C104 | the correlation between two large scale parameters of a UT depends on its place in the list of UTs: it is the documented one for the first UT of each state and weaker for the others, so exchanging two UTs changes the distribution of the channel of both | `lsp.py:120-160`, `lsp.py:285-300`, `lsp.py:350-400` |
| C105 | a UT just below the x axis through the satellite has the reported azimuth of departure 360, outside the documented range: the remainder is negative and tiny, and the sum with 360 is rounded | `utils.py:486-500`, `system_level_scenario.py:828-832` |
| C106 | the surface drawn for an aperture is labelled as gain in dB, but shows 50 plus the natural logarithm of the power: the base given to `tf.math.log` is taken as the name of the operation | `antenna.py:110-112`, `antenna.py:122-124` |
| C108 | the spread at the satellite is set to 0 ("Spread is 0 for satellite cases"), but the spread within each cluster stays: in the Urban environment the rays of every cluster leave at different azimuths, in the uplink they have different zenith angles at the satellite | `rays.py:434-435`, `rays.py:599-600` |
| C111 | the beam centre is drawn with shape `[1]`: all examples of a batch share it; its x coordinate is drawn uniformly and both coordinates are non-negative, so directions are confined to the first quadrant and steep ones are more likely; the drawn `side` is never used | `utils.py:587-595` |

Observations outside the properties: the water-vapour height coefficients 8.1 and 1.5 in
`utils.py:1627-1628` differ from the 8.6 and 1.58 of ITU-R P.676 as remembered (not checkable
offline), and the cap on the dry equivalent height is absent. `C43_gas_formula` pins the code's
own coefficients.

## 6. Testing the theorems against wrong programs

`seeded/LOG.jsonl` lists the edits made to scratch copies of the model, one realistic bug each,
with the lemma or theorem that stopped proving, and the theorems that were tightened because an
edit survived.
