{
 "C07": [
  "proved",
  "Finding: calls that fail for other reasons (e.g. two base stations) are not atomic (C07_failing_call_atomic_refuted)."
 ],
 "C08": [
  "partial",
  "The property is false of the code: refuted by a two-call history. The law that holds (weather of the last call, defaults for what it omits) is proved."
 ],
 "C09": [
  "partial",
  "False for weather-only calls (refuted); everything else proved fresh in C09_derived_fresh_except_weather_partial."
 ],
 "C15": [
  "partial",
  "The property is false of the code: only the first example's height is used. The reported distance is proved right exactly for the examples whose satellite has that height (C15_right_iff_same_height, C14_reported_distance_solves_triangle)."
 ],
 "C16": [
  "partial",
  "Ranges and departure direction proved; the arrival direction points horizontally away from the satellite (refuted), it is right exactly straight below the satellite."
 ],
 "C60": [
  "partial",
  "Spatial covariance for any number of UTs proved, the cross-correlation for the first UT of each state, and for every outdoor UT up to a factor of at most 1; with two UTs the cross-correlation is weaker than requested (refuted for every configuration)."
 ],
 "C58": [
  "partial",
  "Ionospheric law and non-negativity proved; the tropospheric term uses a wrong effective path length and an undefined averaging factor for large apertures (refuted)."
 ],
 "C57": [
  "proved",
  "compute_stallite_doppler returns carrier plus shift; unused by the channel generation."
 ],
 "C22": [
  "partial",
  "Proved for every draw with K >= -63 dB on LoS links; refuted below (the delay scaling polynomial becomes negative), see C22_negative_delays_refuted."
 ],
 "C23": [
  "partial",
  "Proved for outdoor UTs; refuted for indoor UTs (no active cluster, normalisation 0/0), see C23_indoor_refuted."
 ],
 "C25": [
  "partial",
  "Proved end to end for outdoor UTs. Indoor arrivals only at the level of one link, because an indoor link has undefined powers (C23_indoor_refuted)."
 ],
 "C26": [
  "partial",
  "Nine of ten pairs proved symmetric; refuted for rays 15/16 (1.1481 and -0.1481): the offsets sum to 1 and bias every cluster by cAS/20."
 ],
 "C61": [
  "partial",
  "Refuted: the offset is computed in radians and added to an angle in degrees (C61_zod_offset_unit_refuted); what the code does instead is in C25_zenith_angles."
 ],
 "C21": [
  "partial",
  "Proved for outdoor UTs; an indoor link has no active cluster at all (count nlos - nlos), refuted in every configuration (C21_indoor_refuted); consequence under C23."
 ],
 "C41": [
  "partial",
  "V, H and cross are right (proved); dual VH arrays are built with slants -45/+45 degrees because the constructor compares polarization instead of polarization_type with 'VH' (refuted for every VH array)."
 ],
 "C42": [
  "proved",
  "The Bessel function is an argument of the model; only the bound 'gain at most 1' of the aperture pattern needs |J1(x)| <= |x|/2."
 ],
 "C64": [
  "partial",
  "Refuted: the code multiplies by exp(+j 2 pi d/lambda); C64_los_phase_refuted shows the documented phase fails for every link with a non-zero direct ray."
 ],
 "C66": [
  "partial",
  "Direct ray proved at every height, scattered rays below 600 km; refuted for scattered rays from 600 km on (Faraday rotation on the transmit side in both directions), for single rays and for whole channel outputs; the exact law is C66_exchange_law."
 ],
 "C11": [
  "partial",
  "Raising before any success, and definedness when no call failed, are proved; a success reported after a failed first call leaves the object unusable (refuted)."
 ],
 "C33": [
  "partial",
  "The property is false of the code: the basic path loss always contains a shadow fading draw. The sampled SF parameter is proved to have no effect."
 ],
 "C31": [
  "proved",
  "Duality of the two directions holds below 600 km; above, the Faraday rotation is applied on the transmit side in both directions."
 ],
 "C45": [
  "partial",
  "False of the code: the bearing is atan(y/x) without quadrant, so UTs with a negative x coordinate look exactly away from the satellite (refuted); proved for x >= 0 (NaN exactly below the satellite)."
 ],
 "C46": [
  "partial",
  "False of the code: the function raises for all arguments (undefined name `dtype`), proved as C46_interferers_refuted."
 ],
 "C56": [
  "partial",
  "Proved for every file in which the anchor line ends with a line feed; an unterminated anchor line at the end of the file is destroyed (refuted)."
 ],
 "C54": [
  "partial",
  "Everything proved for the documented models A-D, A30, B100, C300; the accepted name 'E' cannot be constructed (refuted)."
 ],
 "C55": [
  "partial",
  "Construction, profile, rays and reciprocity proved; calling any model raises TypeError (refuted)."
 ],
 "C71": [
  "partial",
  "The exact range is proved; the satellite part is a frequency in Hz divided by 3600 added to an angular frequency, so the property is false of the code (refuted)."
 ],
 "C72": [
  "partial",
  "Full and receive-side matrices proved on every scattered tap, and the correlation law of any two taps of a model with a full matrix or with one-sided matrices; the transmit-side matrix gives wrong powers, and on the first tap of a LoS model the specular part is filtered as well, which changes the tap power (both refuted)."
 ],
 "C59": [
  "partial",
  "Refuted as stated: with precision 'double' set_topology always stops with a type mismatch (tf.math.sin of a Python float is float32), proved for every scenario and every location type; the 'single' half is proved."
 ],
 "C78": [
  "partial",
  "Refuted for one property: additional_pathloss raises AttributeError in every reachable state (its computation is commented out of the update). All other documented properties proved."
 ],
 "C79": [
  "partial",
  "Arrays proved; panels proved except that 'polarization' is not readable (misspelled property, refuted)."
 ],
 "C80": [
  "partial",
  "construction, argument binding and read-back proved; the documented defaults of street width and building height and the documented example call are refuted"
 ],
 "C87": [
  "partial",
  "proved for double precision; refuted for single precision, the default: the computed phase is a multiple of 2 rad (16 rad in Ka band) and distances half a wavelength apart give the same factor"
 ],
 "C93": [
  "partial",
  "The property is false of the code: the routine raises for every supported configuration with an elevation below 90 degrees (uplink) and for every satellite height above 14 m (downlink). At exactly 90 degrees in the uplink the outcome depends on rounding and is not stated."
 ],
 "C94": [
  "partial",
  "relative accuracy 10^-5 and the path loss consequence are proved; accuracy to a fraction of a wavelength is refuted (the computed distance is a multiple of 0.5 m from 45 degrees on)"
 ],
 "C95": [
  "partial",
  "relative accuracy in every precision and 0.01 rad within the first millisecond are proved; refuted for long calls in single precision (half-radian grid)"
 ],
 "C96": [
  "partial",
  "The first run is proved right when every step succeeds and the directories contain no blank. Refuted: a second run puts a link to the package into the package, a blank in the host's directory or a failed pip leaves the host with an import of a missing module, a file in the place of the link does the same, and a file of the user named like the hook is deleted."
 ],
 "C97": [
  "partial",
  "Proved for high elevations, with the exact law at the beam centre; refuted up to 20 degrees elevation: every link of every generated topology has a reported 3D distance below the 2D distance."
 ],
 "C98": [
  "partial",
  "Proved for heights up to 1200 km and elevations from 10 degrees on; refuted for beam centres beyond 2^26 m (geostationary orbit), where UTs drawn 7 m apart collapse and set_topology refuses the topology."
 ],
 "C100": [
  "partial",
  "Numbers, points of UTs outdoors, units per kind of node and axes proved; refuted for UTs indoors (no point), for a common unit (stations in km, UTs in m) and for scenes without extent in one direction (no visible axis)."
 ],
 "C101": [
  "partial",
  "Places, numbers and marks proved; refuted for the marks of 'VH' arrays."
 ],
 "C103": [
  "partial",
  "Proved for missing arguments and for recovery by a complete topology; refuted for calls with another number of stations than one (later calls raise) and for coinciding UTs (the refused topology is used)."
 ],
 "C104": [
  "partial",
  "Acceptance, the range of coefficients and delays, and the covariances of one parameter are proved independent of the numbering; refuted for the covariance of delay spread and shadow fading of one UT."
 ],
 "C105": [
  "partial",
  "Accuracy of the four angles and of the departure direction is proved, with the closed range [0,360]; the half-open range is refuted for a sector of positions in every precision. Correctly rounded arc tangent and square root, unbounded exponents."
 ],
 "C106": [
  "partial",
  "Cuts and surfaces proved for every pattern except the surface of an aperture, whose distances are natural logarithms and not dB (refuted)."
 ],
 "C108": [
  "partial",
  "Proved downlink outside the Urban environment, each half also separately; false for the azimuths in the Urban environment and for the zenith angles in the uplink (refuted for every link and cluster)."
 ],
 "C111": [
  "partial",
  "Uniform and independent drop within the square, height, speed and heading proved; refuted for the batch (one beam centre for all examples) and for the directions of the beam centre."
 ]
}